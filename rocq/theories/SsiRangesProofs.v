(** Proofs about SSI ranges. *)
From Coq Require Import NArith Permutation.
From Verif Require Import Base SsiRanges.
Local Open Scope N_scope.

(** Specification: an address is in a range when start <= addr < end. *)
Definition in_range (a : N) (r : ssi_range) : Prop := r_start r <= a < r_end r.

Lemma insert_perm r l : Permutation (r :: l) (range_insert r l).
Proof.
  induction l as [|x t IH]; cbn [range_insert]; [reflexivity|]. destruct (_ <=? _); [reflexivity|].
  rewrite perm_swap. now constructor.
Qed.
Lemma sort_perm l : Permutation l (range_sort l).
Proof. induction l as [|r t IH]; cbn [range_sort]; [constructor|]. rewrite <- insert_perm. now constructor. Qed.

Inductive sortedR : list ssi_range -> Prop :=
| sr_nil : sortedR []
| sr_cons r l : (forall x, In x l -> r_start r <= r_start x) -> sortedR l -> sortedR (r :: l).

Lemma insert_sorted r l : sortedR l -> sortedR (range_insert r l).
Proof.
  induction 1 as [|x l Hx Hl IH]; cbn [range_insert]; [constructor; [intros ? []|constructor]|].
  destruct (r_start r <=? r_start x) eqn:E.
  - constructor; [|now constructor]. intros y [<-|Hy]; [lia|]. specialize (Hx y Hy). lia.
  - constructor; [|exact IH]. intros y Hy. apply (Permutation_in _ (Permutation_sym (insert_perm r l))) in Hy.
    destruct Hy as [<-|Hy]; [lia|auto].
Qed.
Lemma sort_sorted l : sortedR (range_sort l).
Proof. induction l; cbn [range_sort]; [constructor|now apply insert_sorted]. Qed.

(** Whether the checking loop accepts *)
Inductive chain : N -> list ssi_range -> Prop :=
| ch_nil lo : chain lo []
| ch_cons lo r l : lo <= r_start r <= r_end r -> chain (r_end r) l -> chain lo (r :: l).

Lemma check_chain l : forall lo, range_check lo l = Ok tt <-> chain lo l.
Proof.
  induction l as [|r t IH]; intros lo; cbn [range_check].
  - split; [constructor|reflexivity].
  - unfold assert, bind. destruct (r_start r <=? r_end r) eqn:E1; [|split; [discriminate|inversion 1; lia]].
    destruct (lo <=? r_start r) eqn:E2; [|split; [discriminate|inversion 1; lia]].
    rewrite IH. split; [constructor; [lia|assumption]|inversion 1; assumption].
Qed.
Lemma check_cases l lo : range_check lo l = Ok tt \/ range_check lo l = Panic.
Proof.
  revert lo. induction l as [|r t IH]; intros lo; cbn [range_check]; [now left|].
  unfold assert, bind. destruct (_ <=? _); [|now right]. destruct (_ <=? _); [|now right]. apply IH.
Qed.

Lemma chain_in lo l x : chain lo l -> In x l -> lo <= r_start x <= r_end x.
Proof.
  intros H. revert x. induction H as [|lo r l Hr Hl IH]; intros x; [intros []|]. intros [<-|Hx]; [lia|]. specialize (IH x Hx). lia.
Qed.

Lemma contains_spec lo l a : chain lo l -> (ranges_contains l a = true <-> exists r, In r l /\ in_range a r).
Proof.
  intros H. induction H as [|lo r l Hr Hl IH]; cbn [ranges_contains].
  - split; [discriminate|intros (r & [] & _)].
  - destruct ((r_start r <=? a) && (a <? r_end r)) eqn:E1.
    + split; [|reflexivity]. intros _. exists r. split; [now left|]. unfold in_range. lia.
    + destruct (a <? r_end r) eqn:E2.
      * split; [discriminate|]. intros (x & [<-|Hx] & Ha); unfold in_range in Ha; [lia|].
        pose proof (chain_in _ _ x Hl Hx). lia.
      * rewrite IH. split; intros (x & Hx & Ha); [exists x; split; [now right|exact Ha]|].
        destruct Hx as [<-|Hx]; [unfold in_range in Ha; lia|]. exists x. auto.
Qed.

(** Pairwise condition under which a sorted list is accepted *)
Lemma chain_of_sorted l : sortedR l -> (forall r, In r l -> r_start r <= r_end r) ->
  (ForallOrdPairs (fun x y => r_end x <= r_start y \/ r_end y <= r_start x /\ r_start y < r_start x) l) ->
  forall lo, (forall x, In x l -> lo <= r_start x) -> chain lo l.
Proof.
  induction 1 as [|r l Hr Hl IH]; intros Hw HF lo Hlo; [constructor|].
  inversion HF as [|? ? Hp HF']; subst. constructor.
  - specialize (Hw r (or_introl eq_refl)). specialize (Hlo r (or_introl eq_refl)). lia.
  - apply IH; [intros x Hx; apply Hw; now right|exact HF'|].
    intros x Hx. rewrite Forall_forall in Hp. specialize (Hp x Hx). specialize (Hr x Hx). lia.
Qed.

(** Non-empty ranges are pairwise disjoint (as positions in the list, so a repeated range overlaps itself). *)
Definition disjoint (x y : ssi_range) : Prop := forall a, ~ (in_range a x /\ in_range a y).
Definition nonempty (r : ssi_range) : Prop := r_start r < r_end r.

Lemma disjoint_nonempty x y : nonempty x -> nonempty y ->
  (disjoint x y <-> r_end x <= r_start y \/ r_end y <= r_start x).
Proof.
  unfold nonempty, disjoint, in_range. intros Hx Hy. split.
  - intros H. specialize (H (N.max (r_start x) (r_start y))). lia.
  - intros H a Ha. lia.
Qed.

Lemma fop_perm {A} (R : A -> A -> Prop) (Rsym : forall x y, R x y -> R y x) l l' :
  Permutation l l' -> ForallOrdPairs R l -> ForallOrdPairs R l'.
Proof.
  induction 1 as [|x l l' HP IH|x y l|l l' l'' _ IH1 _ IH2]; intros H.
  - exact H.
  - inversion H as [|? ? HF HO]; subst. constructor; [|auto]. eapply Permutation_Forall; eassumption.
  - inversion H as [|? ? HF HO]; subst. inversion HO as [|? ? HF' HO']; subst. inversion HF; subst.
    constructor; [constructor; [now apply Rsym|assumption]|]. constructor; assumption.
  - auto.
Qed.

Lemma chain_fop l : forall lo, chain lo l -> ForallOrdPairs (fun x y => r_end x <= r_start y \/ r_end y <= r_start x) l.
Proof.
  induction 1 as [|lo r l Hr Hl IH]; constructor; [|exact IH].
  apply Forall_forall. intros x Hx. pose proof (chain_in _ _ x Hl Hx). lia.
Qed.

(** The constructor accepts exactly the disjoint lists (for lists of non-empty ranges). *)
Lemma from_vec_accepts l : (forall r, In r l -> nonempty r) ->
  ((exists s, ranges_from_vec l = Ok s) <-> ForallOrdPairs disjoint l).
Proof.
  intros HN. unfold ranges_from_vec. assert (forall r, In r (range_sort l) -> nonempty r) as HN'.
  { intros r Hr. apply HN. eapply Permutation_in; [apply Permutation_sym, sort_perm|exact Hr]. }
  assert (forall l0, (forall r, In r l0 -> nonempty r) ->
     (ForallOrdPairs disjoint l0 <-> ForallOrdPairs (fun x y => r_end x <= r_start y \/ r_end y <= r_start x) l0)) as HEq.
  { induction l0 as [|x t IH]; intros HN0; [split; constructor|].
    split; intros H; inversion H as [|? ? HF HO]; subst; (constructor; [|apply IH; [intros; apply HN0; now right|exact HO]]);
      rewrite Forall_forall in *; intros y Hy; specialize (HF y Hy); apply disjoint_nonempty; auto using in_eq, in_cons. }
  assert (forall x y, disjoint x y -> disjoint y x) as Hsym by (intros x y H a; specialize (H a); tauto).
  split.
  - intros (s & E). destruct (check_cases (range_sort l) 0) as [EC|EC]; rewrite EC in E; [|discriminate].
    apply check_chain in EC. apply (fop_perm _ Hsym (range_sort l)); [apply Permutation_sym, sort_perm|].
    apply HEq; [exact HN'|]. eapply chain_fop, EC.
  - intros HD. exists (range_sort l).
    assert (range_check 0 (range_sort l) = Ok tt) as ->; [|reflexivity]. apply check_chain.
    apply chain_of_sorted; [apply sort_sorted| | |intros; lia].
    + intros r Hr. specialize (HN' r Hr). unfold nonempty in HN'. lia.
    + apply (fop_perm _ Hsym l (range_sort l) (sort_perm l)) in HD. apply HEq in HD; [|exact HN'].
      clear -HD HN'. revert HN'. induction HD as [|x t HF HO IH]; intros HN'; constructor.
      * rewrite Forall_forall in *. intros y Hy. specialize (HF y Hy).
        pose proof (HN' x (or_introl eq_refl)). pose proof (HN' y (or_intror Hy)). unfold nonempty in *. lia.
      * apply IH. intros; apply HN'; now right.
Qed.

(** Every list that is accepted answers membership exactly. *)
Lemma contains_exact l s a : ranges_from_vec l = Ok s ->
  (ranges_contains s a = true <-> exists r, In r l /\ in_range a r).
Proof.
  unfold ranges_from_vec. intros E. destruct (check_cases (range_sort l) 0) as [EC|EC]; rewrite EC in E; [|discriminate].
  assert (s = range_sort l) as -> by (cbn [bind] in E; congruence).
  apply check_chain in EC. rewrite (contains_spec _ _ _ EC).
  pose proof (sort_perm l) as HP.
  split; intros (r & Hr & Ha); exists r; (split; [|exact Ha]); [eapply Permutation_in; [apply Permutation_sym, HP|exact Hr]|eapply Permutation_in; eassumption].
Qed.

(** The order of the configured ranges does not matter. *)
Lemma order_irrelevant l l' s s' a : Permutation l l' -> ranges_from_vec l = Ok s -> ranges_from_vec l' = Ok s' ->
  ranges_contains s a = ranges_contains s' a.
Proof.
  intros HP E E'. apply Bool.eq_true_iff_eq. rewrite (contains_exact _ _ _ E), (contains_exact _ _ _ E').
  split; intros (r & Hr & Ha); exists r; (split; [|exact Ha]); [|apply Permutation_sym in HP]; eapply Permutation_in; eassumption.
Qed.

(** With an empty range, acceptance depends on the order of the input although the covered set is the same. *)
Lemma empty_range_refuted :
  exists l l', Permutation l l' /\ ForallOrdPairs disjoint l /\
    (exists s, ranges_from_vec l = Ok s) /\ ranges_from_vec l' = Panic.
Proof.
  exists [mk_range 10 10; mk_range 10 20], [mk_range 10 20; mk_range 10 10]. split; [constructor|]. split.
  - constructor; [|constructor; constructor]. constructor; [|constructor]. intros a. unfold in_range; cbn. lia.
  - split; [eexists; vm_compute; reflexivity|vm_compute; reflexivity].
Qed.
