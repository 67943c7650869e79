(** Internet checksums written by the data plane (C37, C38). *)
From Verif Require Import Base.

(** ** Specification: RFC 1071 *)

(** A byte string as 16-bit words, an odd last byte padded with zero; [be] is the order of
    RFC 1071 (network order), [le] the order in which the CPU reads them. *)
Definition be (a b : N) : N := 256 * a + b.
Definition le (a b : N) : N := a + 256 * b.
Fixpoint words (f : N -> N -> N) (l : list N) : list N :=
  match l with
  | a :: b :: r => f a b :: words f r
  | [a] => [f a 0]
  | [] => []
  end.
(** Ones' complement addition of 16-bit words (end-around carry). *)
Definition oc_add (a b : N) : N := if 65536 <=? a + b then a + b - 65535 else a + b.
Definition oc_sum (l : list N) : N := foldr oc_add 0 l.
(** The receiver's check: the sum of all words, checksum included, is all ones. *)
Definition checksum_ok (l : list N) : Prop := oc_sum (words be l) = 65535.

Definition is_byte (b : N) : Prop := b < 256.

(** ** Model *)

(** csum.h:23-30 [csum_fold_helper] (the result is truncated to 16 bits). *)
Definition fold1 (x : N) : N := N.land x 65535 + N.shiftr x 16.
Definition csum_fold (v : N) : N := 65535 - u16 (fold1 (fold1 (fold1 (fold1 v)))).

(** csum.h:32-35 [ipv4_csum]: [diff] is what the kernel helper bpf_csum_diff returns for
    these bytes. *)
Definition ipv4_csum (diff : list N -> N) (data : list N) : N := csum_fold (diff data).

(** What is assumed of bpf_csum_diff(0, 0, data, size, 0): a 32-bit value equal to the sum of
    the 16-bit words (CPU order) modulo 65535, and 0 only for an all-zero string. *)
Definition diff_ok (diff : list N -> N) : Prop :=
  forall data, Forall is_byte data ->
    diff data < 4294967296 /\ diff data mod 65535 = foldr N.add 0 (words le data) mod 65535 /\
    (diff data = 0 <-> foldr N.add 0 (words le data) = 0).

(** csum.h:37-45 [ipv4_csum_replace], in __u16 arithmetic: the new value of *sum. *)
Definition csum_replace (sum old new : N) : N :=
  let c0 := 65535 - sum in
  let nold := 65535 - old in
  let c1 := u16 (c0 + nold) in
  let c2 := u16 (c1 + b2N (c1 <? nold)) in
  let c3 := u16 (c2 + new) in
  let c4 := u16 (c3 + b2N (c3 <? new)) in
  65535 - c4.

(** A __u16 stored by the CPU. *)
Definition store16 (v : N) : list N := [v mod 256; v / 256].
Definition load16 (a b : N) : N := le a b.

(** icmp.h:98-106: the part of prepare_icmp_echo_reply that rewrites the ICMP message
    [type; code; checksum; rest]. *)
Definition icmp_reply (msg : list N) : option (list N) :=
  match msg with
  | t :: c :: k0 :: k1 :: rest =>
      if t =? 8 then Some (0 :: 0 :: store16 (csum_replace (load16 k0 k1) (load16 t c) (load16 0 0)) ++ rest)
      else None
  | _ => None
  end.

(** ** Ones' complement arithmetic *)

Definition total (f : N -> N -> N) (l : list N) : N := foldr N.add 0 (words f l).

Lemma oc_add_spec a b : a < 65536 -> b < 65536 ->
  oc_add a b < 65536 /\ oc_add a b mod 65535 = (a + b) mod 65535 /\ (oc_add a b = 0 <-> a + b = 0).
Proof.
  intros Ha Hb. unfold oc_add. destruct (N.leb_spec 65536 (a + b)); [|split; [lia|done]].
  split; [lia|]. split; [|lia].
  replace (a + b) with (a + b - 65535 + 1 * 65535) at 2 by lia. by rewrite N.mod_add.
Qed.

Lemma oc_sum_spec l : Forall (fun w => w < 65536) l ->
  oc_sum l < 65536 /\ oc_sum l mod 65535 = foldr N.add 0 l mod 65535 /\ (oc_sum l = 0 <-> foldr N.add 0 l = 0).
Proof.
  induction l as [|w l IH]; intros Hl; simpl; [done|]. apply Forall_cons in Hl as [Hw Hl].
  destruct (IH Hl) as (H1 & H2 & H3). destruct (oc_add_spec w (oc_sum l) Hw H1) as (H4 & H5 & H6).
  split; [done|]. split; [|lia].
  rewrite H5. rewrite N.add_mod, H2, <- N.add_mod by done. done.
Qed.

Lemma words_bound f l : (f = be \/ f = le) -> Forall is_byte l -> Forall (fun w => w < 65536) (words f l).
Proof.
  intros Hf. assert (Hb : forall a b, is_byte a -> is_byte b -> f a b < 65536).
  { intros a b Ha Hb. unfold is_byte in *. destruct Hf as [-> | ->]; unfold be, le; lia. }
  revert l. fix IH 1. intros [|a [|b l]] Hl; simpl; [constructor| |].
  - apply Forall_cons in Hl as [Ha _]. constructor; [|constructor]. apply Hb; [done|]. done.
  - apply Forall_cons in Hl as [Ha Hl]. apply Forall_cons in Hl as [Hb' Hl]. constructor; [by apply Hb|]. by apply IH.
Qed.

Lemma total_cons f a b l : total f (a :: b :: l) = f a b + total f l.
Proof. done. Qed.
Lemma total_app f l1 l2 : Nat.Even (length l1) -> total f (l1 ++ l2) = total f l1 + total f l2.
Proof.
  revert l1. fix IH 1. intros [|a [|b l1]] He; [done| |].
  - simpl in He. by apply Nat.even_spec in He.
  - change ((a :: b :: l1) ++ l2) with (a :: b :: (l1 ++ l2)). rewrite !total_cons, IH; [lia|].
    simpl in He. destruct He as [k Hk]. exists (Nat.pred k). lia.
Qed.

(** The sum does not depend on the byte order. *)
Lemma total_le_be l : total le l mod 65535 = (256 * total be l) mod 65535.
Proof.
  revert l. fix IH 1. intros [|a [|b l]]; [done| |].
  - unfold total. simpl. unfold le, be.
    replace (256 * (256 * a + 0 + 0)) with (a + 256 * 0 + 0 + a * 65535) by lia. by rewrite N.mod_add.
  - rewrite !total_cons. rewrite N.mul_add_distr_l.
    rewrite N.add_mod, IH, <- N.add_mod by done. change (le a b) with (a + 256 * b). change (be a b) with (256 * a + b).
    replace (256 * (256 * a + b) + 256 * total be l) with (a + 256 * b + 256 * total be l + a * 65535) by lia.
    by rewrite N.mod_add.
Qed.
Lemma total_zero f l : (f = be \/ f = le) -> (total f l = 0 <-> Forall (fun b => b = 0) l).
Proof.
  intros Hf. assert (Hz : forall a b, f a b = 0 <-> a = 0 /\ b = 0).
  { intros a b. destruct Hf as [-> | ->]; unfold be, le; lia. }
  revert l. fix IH 1. intros [|a [|b l]]; [split; [constructor|done]| |].
  - unfold total. simpl. rewrite Forall_singleton. specialize (Hz a 0). lia.
  - rewrite total_cons, !Forall_cons. rewrite <- IH. specialize (Hz a b). lia.
Qed.

(** [checksum_ok] in terms of the CPU-order sum. *)
Lemma mod_65535_256 n : (256 * n) mod 65535 = 0 <-> n mod 65535 = 0.
Proof.
  split; intros H.
  - replace n with (256 * (256 * n) - n * 65535) by lia.
    assert (Hm : (256 * (256 * n)) mod 65535 = 0). { rewrite N.mul_mod, H by done. done. }
    apply N.mod_divide in Hm as [k Hk]; [|done]. rewrite Hk. rewrite <- N.mul_sub_distr_r. by apply N.mod_mul.
  - rewrite N.mul_mod, H by done. done.
Qed.
Lemma checksum_ok_le l : Forall is_byte l -> (checksum_ok l <-> total le l mod 65535 = 0 /\ total le l <> 0).
Proof.
  intros Hl. unfold checksum_ok. pose proof (oc_sum_spec (words be l) (words_bound be l (or_introl eq_refl) Hl)) as (H1 & H2 & H3).
  fold (total be l) in H2, H3. rewrite total_le_be, mod_65535_256.
  rewrite (total_zero le) by auto. rewrite <- (total_zero be) by auto. split.
  - intros E. rewrite E in H2, H3. change (65535 mod 65535) with 0 in H2. split; [done|]. intros H. apply H3 in H. done.
  - intros [Hm Hz]. rewrite Hm in H2. apply N.mod_divide in H2 as [k Hk]; [|done].
    destruct (decide (oc_sum (words be l) = 0)) as [E|E]; [by apply H3 in E|]. nia.
Qed.

(** ** Folding *)

Lemma fold1_eq x : fold1 x = x mod 65536 + x / 65536.
Proof. unfold fold1. change 65535 with (N.ones 16). rewrite N.land_ones, N.shiftr_div_pow2. done. Qed.
Lemma fold1_spec x : fold1 x mod 65535 = x mod 65535 /\ (fold1 x = 0 <-> x = 0).
Proof.
  rewrite fold1_eq.
  pose proof (N.div_mod x 65536 ltac:(done)) as Hx. remember (x / 65536) as q. remember (x mod 65536) as r. split; [|lia].
  rewrite Hx. replace (65536 * q + r) with (r + q + q * 65535) by lia. by rewrite N.mod_add.
Qed.
Lemma fold1_le x : fold1 x <= 65535 + x / 65536.
Proof. rewrite fold1_eq. pose proof (N.mod_lt x 65536). lia. Qed.

Lemma csum_fold_spec v : v < 4294967296 -> exists r, csum_fold v = 65535 - r /\ r < 65536 /\ r mod 65535 = v mod 65535 /\ (r = 0 <-> v = 0).
Proof.
  intros Hv. exists (fold1 (fold1 (fold1 (fold1 v)))).
  destruct (fold1_spec v) as [A1 B1]. destruct (fold1_spec (fold1 v)) as [A2 B2].
  destruct (fold1_spec (fold1 (fold1 v))) as [A3 B3]. destruct (fold1_spec (fold1 (fold1 (fold1 v)))) as [A4 B4].
  assert (H1 : fold1 v <= 131070). { pose proof (fold1_le v). assert (v / 65536 < 65536) by (apply N.div_lt_upper_bound; lia). lia. }
  assert (H2 : fold1 (fold1 v) < 65536).
  { rewrite fold1_eq.
    pose proof (N.div_mod (fold1 v) 65536 ltac:(done)). pose proof (N.mod_lt (fold1 v) 65536). lia. }
  assert (Hs : forall x, x < 65536 -> fold1 x = x).
  { intros x Hx. rewrite fold1_eq.
    rewrite N.mod_small, N.div_small by done. lia. }
  rewrite (Hs (fold1 (fold1 v))) in * by done. rewrite (Hs (fold1 (fold1 v))) in * by done.
  split_and!; [|done|congruence|tauto]. unfold csum_fold, u16. rewrite !(Hs (fold1 (fold1 v))) by done. by rewrite N.mod_small.
Qed.

(** ** C38 *)

Lemma store16_le v : v < 65536 -> le (v mod 256) (v / 256) = v.
Proof. intros Hv. unfold le. pose proof (N.div_mod v 256 ltac:(done)). lia. Qed.
Lemma store16_bytes v : v < 65536 -> Forall is_byte (store16 v).
Proof.
  intros Hv. unfold store16, is_byte. repeat constructor; [by apply N.mod_lt|]. apply N.div_lt_upper_bound; lia.
Qed.

(** The checksum computed over a header whose checksum field is zero and stored in that field
    makes the header verify. *)
Theorem ip_checksum_correct :
  forall diff (before after : list N),
    diff_ok diff -> Forall is_byte (before ++ after) -> Nat.Even (length before) ->
    checksum_ok (before ++ store16 (ipv4_csum diff (before ++ [0; 0] ++ after)) ++ after).
Proof.
  intros diff l1 l2 Hd Hb He. apply Forall_app in Hb as [Hb1 Hb2].
  assert (Hb0 : Forall is_byte (l1 ++ [0; 0] ++ l2)).
  { apply Forall_app. split; [done|]. by repeat constructor. }
  destruct (Hd _ Hb0) as (H1 & H2 & H3). unfold ipv4_csum. fold (total le (l1 ++ [0; 0] ++ l2)) in H2, H3.
  generalize dependent (diff (l1 ++ [0; 0] ++ l2)). intros v H1 H2 H3.
  destruct (csum_fold_spec _ H1) as (r & -> & Hr & Hm & Hz).
  assert (Hs : Forall is_byte (store16 (65535 - r))) by (apply store16_bytes; lia).
  apply checksum_ok_le; [apply Forall_app; split; [done|]; apply Forall_app; by split|].
  rewrite total_app in H2, H3 |- * by done. change ([0; 0] ++ l2) with (0 :: 0 :: l2) in H2, H3.
  change (store16 (65535 - r) ++ l2) with ((65535 - r) mod 256 :: (65535 - r) / 256 :: l2).
  rewrite total_cons in H2, H3 |- *. rewrite store16_le by lia. change (le 0 0) with 0 in H2, H3.
  remember (total le l1) as A. remember (total le l2) as B. rewrite N.add_0_l in H2, H3.
  assert (Hrm : r mod 65535 = (A + B) mod 65535) by congruence.
  split; [|destruct (decide (r = 0)); [lia|]].
  - rewrite N.add_assoc, (N.add_comm A), <- N.add_assoc, N.add_mod, <- Hrm, <- N.add_mod by done.
    replace (65535 - r + r) with (1 * 65535) by lia. by apply N.mod_mul.
  - lia.
Qed.

(** ** C37 *)

Lemma csum_replace_spec sum old new : sum < 65536 -> old < 65536 -> new < 65536 ->
  csum_replace sum old new = 65535 - oc_add (oc_add (65535 - sum) (65535 - old)) new.
Proof.
  intros Hs Ho Hn. unfold csum_replace. cbn zeta.
  assert (Hcarry : forall a b, a < 65536 -> b < 65536 -> u16 (u16 (a + b) + b2N (u16 (a + b) <? b)) = oc_add a b).
  { intros a b Ha Hb. unfold oc_add, u16. destruct (N.leb_spec 65536 (a + b)).
    - replace (a + b) with (a + b - 65536 + 1 * 65536) by lia. rewrite N.mod_add by done. rewrite (N.mod_small (_ - _)) by lia.
      destruct (N.ltb_spec (a + b - 65536) b); [|lia]. simpl. rewrite N.mod_small; lia.
    - rewrite (N.mod_small (a + b)) by lia. destruct (N.ltb_spec (a + b) b); [lia|]. simpl. rewrite N.mod_small; lia. }
  rewrite (Hcarry (65535 - sum) (65535 - old)) by lia.
  destruct (oc_add_spec (65535 - sum) (65535 - old)) as (H1 & _); [lia|lia|].
  by rewrite (Hcarry _ new).
Qed.

(** The reply to an echo request verifies exactly if the request does, unless the ICMP message
    is zero apart from its type, code and checksum. *)
Theorem ping_reply_checksum_partial :
  forall msg reply,
    Forall is_byte msg -> icmp_reply msg = Some reply ->
    ~ Forall (fun b => b = 0) (drop 4 msg) ->
    (checksum_ok reply <-> checksum_ok msg).
Proof.
  intros msg reply Hb H Hnz. unfold icmp_reply in H.
  destruct msg as [|t [|c [|k0 [|k1 rest]]]]; try done. destruct (N.eqb_spec t 8) as [->|]; simplify_eq. simpl in Hnz.
  repeat (apply Forall_cons in Hb as [? Hb]). unfold is_byte in *.
  assert (Hk : load16 k0 k1 < 65536) by (unfold load16, le; lia).
  assert (Ho : load16 8 c < 65536) by (unfold load16, le; lia).
  assert (Hz : load16 0 0 < 65536) by done.
  rewrite (csum_replace_spec _ _ _ Hk Ho Hz).
  destruct (oc_add_spec (65535 - load16 k0 k1) (65535 - load16 8 c)) as (HA & M1 & _); [lia|lia|].
  destruct (oc_add_spec (oc_add (65535 - load16 k0 k1) (65535 - load16 8 c)) (load16 0 0) HA Hz) as (H2' & M2 & _).
  remember (oc_add (oc_add _ _) _) as v eqn:Ev. clear Ev.
  assert (Hst : Forall is_byte (store16 (65535 - v))) by (apply store16_bytes; lia).
  rewrite !checksum_ok_le.
  2: { repeat (constructor; [unfold is_byte; lia|]). done. }
  2: { constructor; [done|]. constructor; [done|]. apply Forall_app. by split. }
  change (0 :: 0 :: store16 (65535 - v) ++ rest) with (0 :: 0 :: (65535 - v) mod 256 :: (65535 - v) / 256 :: rest).
  rewrite !total_cons. rewrite store16_le by lia. fold (load16 8 c) (load16 k0 k1). change (le 0 0) with 0. change (load16 0 0) with 0 in M2.
  assert (Hrest : total le rest <> 0). { intros E. apply Hnz. by apply (total_zero le); auto. }
  remember (load16 8 c) as o. remember (load16 k0 k1) as k. remember (total le rest) as T.
  assert (Hv : v mod 65535 = (65535 - k + (65535 - o)) mod 65535).
  { rewrite M2, N.add_0_r, M1. done. }
  assert (Heq : (0 + (65535 - v + T)) mod 65535 = (o + (k + T)) mod 65535).
  { (* 65535 - v is o + k modulo 65535 *)
    assert (Hx : (65535 - v) mod 65535 = (o + k) mod 65535).
    { assert (Hy : (65535 - v + v) mod 65535 = 0). { replace (65535 - v + v) with (1 * 65535) by lia. by apply N.mod_mul. }
      rewrite N.add_mod, Hv, <- N.add_mod in Hy by done.
      apply N.mod_divide in Hy as [j Hj]; [|done].
      assert (o + k + (j * 65535) = 65535 - v + 2 * 65535) by lia.
      rewrite <- (N.mod_add (o + k) j), <- (N.mod_add (65535 - v) 2) by done. congruence. }
    rewrite N.add_0_l, N.add_mod, Hx, <- N.add_mod by done. f_equal. lia. }
  rewrite Heq. split; intros [? ?]; (split; [done|lia]).
Qed.

(** A request that verifies, with identifier, sequence number and payload all zero: its reply does not. *)
Theorem ping_reply_checksum_refuted :
  exists msg reply, Forall is_byte msg /\ checksum_ok msg /\ icmp_reply msg = Some reply /\ ~ checksum_ok reply.
Proof.
  exists [8; 0; 247; 255; 0; 0; 0; 0], [0; 0; 0; 0; 0; 0; 0; 0]. split_and!; [by repeat constructor|done|done|done].
Qed.

Example ex_ping : checksum_ok [8; 0; 227; 253; 18; 2; 2; 0] /\
  icmp_reply [8; 0; 227; 253; 18; 2; 2; 0] = Some [0; 0; 235; 253; 18; 2; 2; 0] /\
  checksum_ok [0; 0; 235; 253; 18; 2; 2; 0].
Proof. done. Qed.

(** Such a helper exists. *)
Example ex_diff : diff_ok (fun data => oc_sum (words le data)).
Proof.
  intros data Hb. destruct (oc_sum_spec (words le data)) as (H1 & H2 & H3); [apply words_bound; auto|].
  split; [lia|]. by split.
Qed.
Example ex_header : checksum_ok ([69; 0; 0; 28; 0; 0; 64; 0; 64; 17] ++
   store16 (ipv4_csum (fun data => oc_sum (words le data)) ([69; 0; 0; 28; 0; 0; 64; 0; 64; 17] ++ [0; 0] ++ [10; 0; 0; 1; 10; 0; 0; 2])) ++ [10; 0; 0; 1; 10; 0; 0; 2]).
Proof. done. Qed.
