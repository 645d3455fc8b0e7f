(** Finite maps with [N] keys, standing for [HashMap]/[HashSet].  The order of the entries is a
    modelling choice (the code's iteration order is unspecified); nothing that is proved depends on it
    unless a comment says so. *)
From Verif Require Import Base.
Open Scope N_scope.

Definition amap (A : Type) := list (N * A).
Fixpoint aget {A} (k : N) (m : amap A) : option A :=
  match m with [] => None | (k', v) :: t => if k =? k' then Some v else aget k t end.
Definition adel {A} (k : N) (m : amap A) : amap A := filter (fun p => negb (k =? fst p)) m.
Definition aset {A} (k : N) (v : A) (m : amap A) : amap A := (k, v) :: adel k m.
(** Change every value, in entry order; stop at the first failure. *)
Fixpoint amapm {A} (f : A -> res A) (m : amap A) : res (amap A) :=
  match m with
  | [] => Ok []
  | (k, v) :: t => v <- f v ;; t <- amapm f t ;; Ok ((k, v) :: t)
  end.
Definition akeys {A} (m : amap A) : list N := map fst m.

Lemma aget_adel {A} k k' (m : amap A) : aget k (adel k' m) = if k =? k' then None else aget k m.
Proof.
  induction m as [|[q v] t IH]; cbn [adel filter aget]; [now destruct (k =? k')|]. cbn [fst]. fold (adel k' t).
  destruct (N.eqb_spec k' q) as [E|E]; cbn [negb aget].
  - subst q. destruct (N.eqb_spec k k'); [now rewrite IH|]. rewrite IH. now destruct (N.eqb_spec k k').
  - rewrite IH. destruct (N.eqb_spec k q), (N.eqb_spec k k'); try reflexivity. congruence.
Qed.
Lemma aget_aset {A} k k' (v : A) m : aget k (aset k' v m) = if k =? k' then Some v else aget k m.
Proof. unfold aset. cbn [aget]. rewrite aget_adel. now destruct (k =? k'). Qed.
Lemma amapm_ok {A} (f : A -> res A) (g : A -> A) m : (forall k v, aget k m = Some v \/ In (k, v) m -> f v = Ok (g v)) ->
  amapm f m = Ok (map (fun p => (fst p, g (snd p))) m).
Proof.
  induction m as [|[k v] t IH]; intros H; cbn [amapm map]; [reflexivity|].
  rewrite (H k v) by (right; left; reflexivity). cbn [bind fst snd]. rewrite IH; [reflexivity|].
  intros k' v' [H'|H']; apply (H k' v'); right; right; [|assumption].
  clear - H'. induction t as [|[q w] t IH]; cbn [aget] in H'; [discriminate|]. destruct (N.eqb_spec k' q); [left; congruence|right; auto].
Qed.
Lemma aget_map {A B} (g : A -> B) k (m : amap A) : aget k (map (fun p => (fst p, g (snd p))) m) = option_map g (aget k m).
Proof. induction m as [|[q v] t IH]; cbn [map aget fst snd]; [reflexivity|]. now destruct (k =? q). Qed.
Lemma aget_in {A} k (v : A) m : aget k m = Some v -> In (k, v) m.
Proof. induction m as [|[q w] t IH]; cbn [aget]; intros H; [discriminate|]. destruct (N.eqb_spec k q); [left; congruence|right; auto]. Qed.
Lemma aget_none {A} k (m : amap A) : aget k m = None <-> ~ In k (akeys m).
Proof.
  induction m as [|[q w] t IH]; cbn [aget akeys map In]; [tauto|]. destruct (N.eqb_spec k q) as [E|E].
  - split; [discriminate|]. intros H. exfalso. apply H. left. auto.
  - rewrite IH. split; intros H; [intros [H'|H']; [cbn in H'; congruence|now apply H]|tauto].
Qed.
Lemma in_adel {A} k (p : N * A) m : In p (adel k m) <-> In p m /\ fst p <> k.
Proof. unfold adel. rewrite filter_In. destruct (N.eqb_spec k (fst p)); cbn [negb]; intuition congruence. Qed.
