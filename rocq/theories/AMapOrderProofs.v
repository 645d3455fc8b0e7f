(** Facts on [AMapOrder]. *)
From Coq Require Import Permutation.
From Verif Require Import Base AMap AMapOrder.
Open Scope N_scope.

Lemma memN_true k l : memN k l = true <-> In k l.
Proof. unfold memN. rewrite existsb_exists. split; [intros (x & H & E); apply N.eqb_eq in E; now subst|intros H; exists k; now rewrite N.eqb_refl]. Qed.
Lemma memN_false k l : memN k l = false <-> ~ In k l.
Proof. rewrite <- memN_true. destruct (memN k l); intuition congruence. Qed.

Lemma akeys_adel {A} k (m : amap A) : akeys (adel k m) = filter (fun q => negb (k =? q)) (akeys m).
Proof. induction m as [|[q v] t IH]; cbn; [reflexivity|]. destruct (k =? q); cbn; [|f_equal]; apply IH. Qed.
Lemma nodup_adel {A} k (m : amap A) : NoDup (akeys m) -> NoDup (akeys (adel k m)).
Proof. rewrite akeys_adel. apply NoDup_filter. Qed.
Lemma nodup_aset {A} k (v : A) m : NoDup (akeys m) -> NoDup (akeys (aset k v m)).
Proof.
  intros H. unfold aset. cbn [akeys map fst]. constructor; [|now apply (nodup_adel k)].
  change (map fst (adel k m)) with (akeys (adel k m)). rewrite akeys_adel, filter_In, N.eqb_refl. now intros [_ H'].
Qed.
Lemma in_aget {A} k (v : A) m : NoDup (akeys m) -> In (k, v) m -> aget k m = Some v.
Proof.
  induction m as [|[q w] t IH]; cbn; [easy|]. intros ND [H|H].
  - injection H as -> ->. now rewrite N.eqb_refl.
  - apply NoDup_cons_iff in ND. destruct ND as [NI ND]. destruct (N.eqb_spec k q) as [E|E]; [|now apply IH].
    exfalso. apply NI. subst q. apply (in_map fst) in H. exact H.
Qed.
Lemma aget_iff {A} k (v : A) m : NoDup (akeys m) -> (In (k, v) m <-> aget k m = Some v).
Proof. intros ND. split; [now apply in_aget|apply aget_in]. Qed.
Lemma nodup_entries {A} (m : amap A) : NoDup (akeys m) -> NoDup m.
Proof. apply NoDup_map_inv. Qed.

Lemma arrange_in {A} h (m : amap A) k v : NoDup (akeys m) -> (In (k, v) (arrange h m) <-> aget k m = Some v).
Proof.
  intros ND. unfold arrange. rewrite in_app_iff, in_flat_map, filter_In. cbn [fst]. split.
  - intros [(q & _ & H)|[H _]].
    + destruct (aget q m) eqn:E; [|easy]. destruct H as [H|[]]. injection H as -> ->. exact E.
    + now apply in_aget.
  - intros H. destruct (memN k h) eqn:M.
    + left. exists k. rewrite nodup_In. rewrite H. split; [now apply memN_true|now left].
    + right. split; [now apply aget_in|reflexivity].
Qed.

Lemma arrange_perm {A} h (m : amap A) : NoDup (akeys m) -> Permutation (arrange h m) m.
Proof.
  intros ND. apply NoDup_Permutation.
  - unfold arrange. assert (G : forall (l1 l2 : list (N * A)), NoDup l1 -> NoDup l2 -> (forall x, In x l1 -> ~ In x l2) -> NoDup (l1 ++ l2)).
    { clear. induction l1 as [|a t IH]; cbn; intros l2 H1 H2 D; [assumption|]. apply NoDup_cons_iff in H1. constructor.
      - rewrite in_app_iff. intros [H|H]; [easy|]. now apply (D a); [left|].
      - apply IH; [easy|easy|]. intros x Hx. apply D. now right. }
    apply G.
    + assert (K : forall l, NoDup l -> NoDup (flat_map (fun k => match aget k m with Some v => [(k, v)] | None => [] end) l)).
      { induction l as [|a t IH]; cbn; intros H; [constructor|]. apply NoDup_cons_iff in H. destruct H as [H1 H2].
        destruct (aget a m) eqn:E; cbn; [|now apply IH]. constructor; [|now apply IH].
        rewrite in_flat_map. intros (q & Hq & H). destruct (aget q m); [|easy]. destruct H as [H|[]]. injection H as -> _. contradiction. }
      apply K, NoDup_nodup.
    + now apply NoDup_filter, nodup_entries.
    + intros [k v] H1 H2. rewrite filter_In in H2. destruct H2 as [_ H2]. cbn in H2. apply negb_true_iff, memN_false in H2.
      rewrite in_flat_map in H1. destruct H1 as (q & Hq & H). rewrite nodup_In in Hq. destruct (aget q m); [|easy].
      destruct H as [H|[]]. injection H as -> _. contradiction.
  - now apply nodup_entries.
  - intros [k v]. rewrite arrange_in by assumption. symmetry. now apply aget_iff.
Qed.

(** Every order of the entries is obtained by some hint. *)
Lemma arrange_any {A} (m l : amap A) : NoDup (akeys m) -> Permutation l m -> arrange (akeys l) m = l.
Proof.
  intros ND P. unfold arrange.
  assert (NDl : NoDup (akeys l)) by (apply (Permutation_NoDup (l := akeys m)); [apply Permutation_map; now symmetry|assumption]).
  rewrite nodup_fixed_point by assumption.
  replace (filter _ m) with (@nil (N * A)).
  - rewrite app_nil_r. assert (Hin : forall p, In p l -> In p m) by (intros p; now apply Permutation_in).
    clear P NDl. unfold akeys. induction l as [|[k v] t IH]; cbn [map flat_map fst]; [reflexivity|].
    rewrite (in_aget k v m) by (auto; apply Hin; now left). cbn [app]. f_equal. apply IH. intros p Hp. apply Hin. now right.
  - symmetry. clear ND. assert (Hin : forall p, In p m -> In p l) by (intros p; apply Permutation_in; now symmetry).
    clear P NDl. induction m as [|p t IH]; cbn [filter]; [reflexivity|].
    replace (memN (fst p) (akeys l)) with true.
    + apply IH. intros q Hq. apply Hin. now right.
    + symmetry. apply memN_true, in_map, Hin. now left.
Qed.

Lemma arrange_set_in h l k : In k (arrange_set h l) <-> In k l.
Proof.
  unfold arrange_set. rewrite in_app_iff, !filter_In, nodup_In, memN_true, negb_true_iff, memN_false.
  destruct (in_dec N.eq_dec k h); tauto.
Qed.
Lemma arrange_set_nodup h l : NoDup l -> NoDup (arrange_set h l).
Proof.
  intros H. unfold arrange_set.
  assert (G : forall (l1 l2 : list N), NoDup l1 -> NoDup l2 -> (forall x, In x l1 -> ~ In x l2) -> NoDup (l1 ++ l2)).
  { clear. induction l1 as [|a t IH]; cbn; intros l2 H1 H2 D; [assumption|]. apply NoDup_cons_iff in H1. constructor.
    - rewrite in_app_iff. intros [H|H]; [easy|]. now apply (D a); [left|].
    - apply IH; [easy|easy|]. intros x Hx. apply D. now right. }
  apply G; [apply NoDup_filter, NoDup_nodup|now apply NoDup_filter|].
  intros x H1 H2. rewrite filter_In in H1, H2. rewrite nodup_In in H1. destruct H1 as [H1 _], H2 as [_ H2].
  apply negb_true_iff, memN_false in H2. contradiction.
Qed.
