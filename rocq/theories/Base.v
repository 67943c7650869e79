(** Shared vocabulary: machine integers, byte strings, Go map iteration order. *)
From stdpp Require Export base numbers list gmap.
From Coq Require Export NArith ZArith Lia Sorted Permutation.
Open Scope N_scope.

Global Arguments N.mul : simpl never.
Global Arguments N.add : simpl never.
Global Arguments N.sub : simpl never.
Global Arguments N.div : simpl never.
Global Arguments N.modulo : simpl never.
Global Arguments N.pow : simpl never.
Global Arguments N.eqb : simpl never.
Global Arguments N.leb : simpl never.
Global Arguments N.ltb : simpl never.
Global Arguments N.land : simpl never.
Global Arguments N.lor : simpl never.
Global Arguments N.shiftl : simpl never.
Global Arguments N.shiftr : simpl never.
Global Arguments N.of_nat : simpl never.

(** Go/C unsigned integers are modelled by [N]; conversions and wrapping
    arithmetic reduce modulo 2^k. *)
Definition u8  (n : N) : N := n mod 256.
Definition u16 (n : N) : N := n mod 65536.
Definition u32 (n : N) : N := n mod 4294967296.
Definition u64 (n : N) : N := n mod 18446744073709551616.

Definition b2N (b : bool) : N := if b then 1 else 0.

(** Go iterates over a map in an unspecified order that may differ each time.
    A [shuffle] is one choice of orders: given the keys of a map (and a tag, so
    that different maps can be visited in unrelated orders) it returns the keys
    in the order in which they are visited; [fair] says that each key is visited
    exactly once.  All theorems quantify over every fair shuffle. *)
Definition shuffle := N -> list N -> list N.
Definition fair (sh : shuffle) : Prop := forall t l, sh t l ≡ₚ l.

(** The entries of a Go map in the order chosen by [sh]. *)
Definition entries {A} (sh : shuffle) (tag : N) (m : gmap N A) : list (N * A) :=
  omap (fun k => (fun v => (k, v)) <$> m !! k) (sh tag (fst <$> map_to_list m)).

Definition id_shuffle : shuffle := fun _ l => l.
Definition rev_shuffle : shuffle := fun _ l => rev l.

Lemma id_shuffle_fair : fair id_shuffle.
Proof. intros t l. reflexivity. Qed.
Lemma rev_shuffle_fair : fair rev_shuffle.
Proof. intros t l. symmetry. apply Permutation_rev. Qed.

Global Instance omap_Permutation {A B} (f : A -> option B) : Proper ((≡ₚ) ==> (≡ₚ)) (omap f).
Proof.
  induction 1 as [|x l l' _ IH|x y l|l1 l2 l3 _ IH1 _ IH2]; simpl; [done| | |by etrans].
  - destruct (f x); [by rewrite IH|done].
  - destruct (f x), (f y); try done. apply perm_swap.
Qed.

Lemma entries_perm {A} sh t (m : gmap N A) : fair sh -> entries sh t m ≡ₚ map_to_list m.
Proof.
  intros Hf. unfold entries. rewrite (Hf t _).
  assert (H : forall l : list (N * A), (forall k v, (k, v) ∈ l -> m !! k = Some v) ->
    omap (fun k => (fun v => (k, v)) <$> m !! k) (fst <$> l) = l).
  { induction l as [|[k v] r IH]; intros Hin; [done|]. simpl. rewrite (Hin k v) by left. simpl.
    f_equal. apply IH. intros. apply Hin. by right. }
  rewrite H; [done|]. intros k v Hkv. by apply elem_of_map_to_list.
Qed.

Lemma elem_of_entries {A} sh t (m : gmap N A) k v :
  fair sh -> (k, v) ∈ entries sh t m <-> m !! k = Some v.
Proof. intros Hf. rewrite (entries_perm sh t m Hf). apply elem_of_map_to_list. Qed.

Lemma NoDup_entries_fst {A} sh t (m : gmap N A) : fair sh -> NoDup (fst <$> entries sh t m).
Proof. intros Hf. rewrite (entries_perm sh t m Hf). apply NoDup_fst_map_to_list. Qed.

(** [0; 1; ...; n-1] *)
Definition Nseq (n : N) : list N := N.of_nat <$> seq 0 (N.to_nat n).

Lemma elem_of_Nseq n x : x ∈ Nseq n <-> x < n.
Proof.
  unfold Nseq. rewrite elem_of_list_fmap. split.
  - intros (k & -> & Hk). apply elem_of_seq in Hk. lia.
  - intros H. exists (N.to_nat x). rewrite N2Nat.id. split; [done|].
    apply elem_of_seq. lia.
Qed.
Lemma NoDup_Nseq n : NoDup (Nseq n).
Proof. apply NoDup_fmap_2; [intros ??; lia|]. apply NoDup_seq. Qed.
Lemma length_Nseq n : length (Nseq n) = N.to_nat n.
Proof. unfold Nseq. by rewrite fmap_length, seq_length. Qed.
