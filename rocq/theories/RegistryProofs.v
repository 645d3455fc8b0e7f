(** Proofs about the subscriber registry. *)
From Verif Require Import Base AMap Registry RegistrySpec.
Open Scope N_scope.

Lemma has_in g l : set_has g l = true <-> In g l.
Proof. unfold set_has. rewrite existsb_exists. split; [intros (x & H & E); apply N.eqb_eq in E; now subst|intros H; exists g; split; [exact H|apply N.eqb_refl]]. Qed.
Lemma has_add g x l : set_has g (set_add x l) = (x =? g) || set_has g l.
Proof.
  unfold set_add. destruct (set_has x l) eqn:E; [|cbn; now rewrite (N.eqb_sym x)].
  destruct (N.eqb_spec x g) as [->|]; [now rewrite E|reflexivity].
Qed.
Lemma has_del g x l : set_has g (set_del x l) = negb (x =? g) && set_has g l.
Proof.
  unfold set_has, set_del. induction l as [|y t IH]; cbn [filter existsb]; [now rewrite andb_false_r|].
  destruct (N.eqb_spec x y) as [->|E]; cbn [negb existsb]; rewrite IH.
  - destruct (N.eqb_spec g y) as [->|]; [now rewrite N.eqb_refl|reflexivity].
  - destruct (N.eqb_spec g y) as [->|]; cbn [orb]; [|reflexivity]. destruct (N.eqb_spec x y); [congruence|reflexivity].
Qed.

Definition keys_ok {A} (m : amap A) : Prop := NoDup (map fst m).
Lemma keys_ok_get {A} (m : amap A) i v : keys_ok m -> In (i, v) m -> aget i m = Some v.
Proof.
  unfold keys_ok. induction m as [|[k w] t IH]; cbn [map fst aget]; intros ND H; [destruct H|].
  apply NoDup_cons_iff in ND. destruct ND as [NI ND]. destruct H as [H|H].
  - injection H as -> ->. now rewrite N.eqb_refl.
  - destruct (N.eqb_spec i k) as [->|]; [|now apply IH]. exfalso. apply NI. apply in_map_iff. exists (k, v). auto.
Qed.
Lemma keys_ok_del {A} k (m : amap A) : keys_ok m -> keys_ok (adel k m).
Proof.
  unfold keys_ok, adel. induction m as [|x t IH]; cbn [map filter]; intros H; [constructor|].
  apply NoDup_cons_iff in H. destruct H as [NI ND]. destruct (negb (k =? fst x)); [|now apply IH]. cbn [map]. constructor; [|now apply IH].
  intros Q. apply NI. apply in_map_iff in Q. destruct Q as (y & E & Q). apply filter_In in Q. apply in_map_iff. exists y. tauto.
Qed.
Lemma keys_ok_set {A} k v (m : amap A) : keys_ok m -> keys_ok (aset k v m).
Proof.
  intros H. unfold keys_ok, aset. cbn [map fst]. constructor; [|now apply keys_ok_del].
  intros Q. apply in_map_iff in Q. destruct Q as (y & E & Q). apply in_adel in Q. tauto.
Qed.
Lemma any_iff g m : keys_ok m -> (any_attached g m = true <-> exists i gs, aget i m = Some gs /\ set_has g gs = true).
Proof.
  intros K. unfold any_attached. rewrite existsb_exists. split.
  - intros ([i gs] & H & E). exists i, gs. split; [now apply keys_ok_get|exact E].
  - intros (i & gs & H & E). exists (i, gs). split; [now apply aget_in|exact E].
Qed.

Lemma fold_dereg subs gs : forall all g,
  set_has g (fold_left (fun all g => if any_attached g subs then all else set_del g all) gs all) =
  set_has g all && (negb (set_has g gs) || any_attached g subs).
Proof.
  induction gs as [|x t IH]; intros all g; cbn [fold_left]; [cbn; now rewrite andb_true_r|].
  rewrite IH. change (set_has g (x :: t)) with ((g =? x) || set_has g t).
  destruct (N.eqb_spec g x) as [->|E]; cbn [orb negb].
  - destruct (any_attached x subs) eqn:A; [rewrite ?orb_true_r; now rewrite ?andb_true_r|].
    rewrite has_del, N.eqb_refl. cbn. now rewrite andb_false_r.
  - destruct (any_attached x subs); [reflexivity|]. rewrite has_del. destruct (N.eqb_spec x g); [congruence|reflexivity].
Qed.

Definition reg_inv (h : list reg_op) (r : registry) : Prop :=
  keys_ok (rg_subs r) /\
  (forall i, match aget i (rg_subs r) with
             | Some gs => is_reg h i = true /\ forall g, set_has g gs = is_aff h i g
             | None => is_reg h i = false /\ forall g, is_aff h i g = false end) /\
  (forall g, reg_has_members g r = true <-> exists i, is_aff h i g = true).

Lemma attached_iff h r g : keys_ok (rg_subs r) ->
  (forall i, match aget i (rg_subs r) with
             | Some gs => is_reg h i = true /\ forall g, set_has g gs = is_aff h i g
             | None => is_reg h i = false /\ forall g, is_aff h i g = false end) ->
  (any_attached g (rg_subs r) = true <-> exists i, is_aff h i g = true).
Proof.
  intros K M. rewrite any_iff by assumption. split.
  - intros (i & gs & E & H). exists i. specialize (M i). rewrite E in M. destruct M as [_ M]. now rewrite <- M.
  - intros (i & H). specialize (M i). destruct (aget i (rg_subs r)) as [gs|] eqn:E.
    + exists i, gs. split; [exact E|]. destruct M as [_ M]. now rewrite M.
    + destruct M as [_ M]. rewrite M in H. discriminate H.
Qed.

Lemma deregister_inv h r i : reg_inv h r -> reg_inv (Deregister i :: h) (reg_deregister i r).
Proof.
  intros (K & M & G). unfold reg_deregister. destruct (aget i (rg_subs r)) as [gs|] eqn:E.
  - set (subs := adel i (rg_subs r)).
    assert (K' : keys_ok subs) by now apply keys_ok_del.
    assert (M' : forall j, match aget j subs with
             | Some gs => is_reg (Deregister i :: h) j = true /\ forall g, set_has g gs = is_aff (Deregister i :: h) j g
             | None => is_reg (Deregister i :: h) j = false /\ forall g, is_aff (Deregister i :: h) j g = false end).
    { intros j. unfold subs. rewrite aget_adel. cbn [is_reg is_aff]. rewrite (N.eqb_sym j i). destruct (N.eqb_spec i j) as [->|]; [auto|]. apply M. }
    split; [exact K'|]. split; [exact M'|]. intros g. unfold reg_has_members. cbn [rg_groups]. rewrite fold_dereg.
    pose proof (attached_iff (Deregister i :: h) (mk_reg subs []) g K' M') as AI. cbn [rg_subs] in AI.
    rewrite andb_true_iff, orb_true_iff, negb_true_iff, AI. unfold reg_has_members in G. rewrite G.
    specialize (M i). rewrite E in M. destruct M as [_ M]. split.
    + intros [(j & H) [N|Q]]; [|exact Q]. exists j. cbn [is_aff]. destruct (N.eqb_spec i j) as [->|]; [rewrite <- M in H; congruence|exact H].
    + intros (j & H). split; [|right; now exists j]. exists j. cbn [is_aff] in H. destruct (i =? j); [discriminate H|exact H].
  - assert (Z : forall g j, is_aff (Deregister i :: h) j g = is_aff h j g).
    { intros g j. cbn [is_aff]. destruct (N.eqb_spec i j) as [->|]; [|reflexivity]. specialize (M j). rewrite E in M. symmetry. apply M. }
    split; [exact K|]. split.
    + intros j. specialize (M j). destruct (aget j (rg_subs r)) eqn:Ej.
      * cbn [is_reg]. destruct (N.eqb_spec i j) as [->|]; [congruence|]. split; [apply M|]. intros g. rewrite Z. apply M.
      * split; [cbn [is_reg]; destruct (i =? j); [reflexivity|apply M]|]. intros g. rewrite Z. apply M.
    + intros g. rewrite G. split; intros (j & H); exists j; [rewrite Z|rewrite Z in H]; exact H.
Qed.

Lemma step_inv h r o : reg_inv h r -> reg_inv (o :: h) (reg_step r o).
Proof.
  intros I. destruct o as [i|i|i x|i x]; cbn [reg_step].
  - destruct (deregister_inv h r i I) as (K & M & G). unfold reg_register. set (r1 := reg_deregister i r) in *.
    assert (Z : forall g j, is_aff (Register i :: h) j g = is_aff (Deregister i :: h) j g) by reflexivity.
    split; [now apply keys_ok_set|]. split; [|intros g; unfold reg_has_members in *; cbn [rg_groups]; apply G].
    intros j. cbn [rg_subs]. rewrite aget_aset, (N.eqb_sym j i). specialize (M j). cbn [is_reg is_aff] in *.
    destruct (N.eqb_spec i j) as [->|]; [auto|exact M].
  - now apply deregister_inv.
  - destruct I as (K & M & G). unfold reg_affiliate.
    assert (M' : forall j, match aget j (aset i (set_add x (reg_get i r)) (rg_subs r)) with
             | Some gs => is_reg (Affiliate i x :: h) j = true /\ forall g, set_has g gs = is_aff (Affiliate i x :: h) j g
             | None => is_reg (Affiliate i x :: h) j = false /\ forall g, is_aff (Affiliate i x :: h) j g = false end).
    { intros j. rewrite aget_aset, (N.eqb_sym j i). cbn [is_reg is_aff]. specialize (M j). destruct (N.eqb_spec i j) as [->|]; cbn [andb]; [|exact M].
      split; [reflexivity|]. intros g. rewrite has_add. unfold reg_get. destruct (aget j (rg_subs r)) as [gs|].
      - destruct M as [_ M]. rewrite M. now destruct (x =? g).
      - destruct M as [_ M]. rewrite M. now destruct (x =? g). }
    split; [now apply keys_ok_set|]. split; [exact M'|].
    intros g. unfold reg_has_members in *. cbn [rg_groups]. rewrite has_add, orb_true_iff, G. split.
    + intros [E|(j & H)].
      * apply N.eqb_eq in E. subst g. exists i. cbn [is_aff]. now rewrite !N.eqb_refl.
      * exists j. cbn [is_aff]. destruct ((i =? j) && (x =? g)); [reflexivity|exact H].
    + intros (j & H). cbn [is_aff] in H. destruct (N.eqb_spec x g); [now left|]. rewrite andb_false_r in H. right. now exists j.
  - destruct I as (K & M & G). unfold reg_deaffiliate.
    set (subs := aset i (set_del x (reg_get i r)) (rg_subs r)).
    assert (K' : keys_ok subs) by now apply keys_ok_set.
    assert (M' : forall j, match aget j subs with
             | Some gs => is_reg (Deaffiliate i x :: h) j = true /\ forall g, set_has g gs = is_aff (Deaffiliate i x :: h) j g
             | None => is_reg (Deaffiliate i x :: h) j = false /\ forall g, is_aff (Deaffiliate i x :: h) j g = false end).
    { intros j. unfold subs. rewrite aget_aset, (N.eqb_sym j i). cbn [is_reg is_aff]. specialize (M j). destruct (N.eqb_spec i j) as [->|]; cbn [andb]; [|exact M].
      split; [reflexivity|]. intros g. rewrite has_del. unfold reg_get. destruct (aget j (rg_subs r)) as [gs|].
      - destruct M as [_ M]. rewrite M. now destruct (x =? g).
      - destruct M as [_ M]. rewrite M. now destruct (x =? g). }
    split; [exact K'|]. split; [exact M'|].
    assert (HI : set_has x (reg_get i r) = is_aff h i x).
    { specialize (M i). unfold reg_get. destruct (aget i (rg_subs r)); destruct M as [_ M]; [apply M|now rewrite M]. }
    pose proof (attached_iff (Deaffiliate i x :: h) (mk_reg subs []) x K' M') as AI. cbn [rg_subs] in AI.
    intros g. unfold reg_has_members in *. cbn [rg_groups]. destruct (set_has x (reg_get i r)) eqn:E.
    + destruct (any_attached x subs) eqn:A.
      * rewrite G. split; intros (j & H).
        -- destruct (N.eqb_spec x g) as [<-|N]; [now apply AI|]. exists j. cbn [is_aff]. apply N.eqb_neq in N. now rewrite N, andb_false_r.
        -- exists j. cbn [is_aff] in H. destruct ((i =? j) && (x =? g)); [discriminate H|exact H].
      * rewrite has_del, andb_true_iff, negb_true_iff, N.eqb_neq, G. split.
        -- intros [N (j & H)]. exists j. cbn [is_aff]. apply N.eqb_neq in N. now rewrite N, andb_false_r.
        -- intros (j & H). split.
           ++ intros <-. destruct AI as [_ AI]. discriminate AI. now exists j.
           ++ exists j. cbn [is_aff] in H. destruct ((i =? j) && (x =? g)); [discriminate H|exact H].
    + assert (Z : forall j, is_aff (Deaffiliate i x :: h) j g = is_aff h j g).
      { intros j. cbn [is_aff]. destruct (N.eqb_spec i j) as [E1|E1]; [|reflexivity]. destruct (N.eqb_spec x g) as [E3|E3]; [|reflexivity].
        cbn [andb]. rewrite <- E1, <- E3. exact HI. }
      rewrite G. split; intros (j & H); exists j; [rewrite Z|rewrite Z in H]; exact H.
Qed.

Lemma registry_answers l :
  (forall i, reg_is_registered i (reg_run l) = is_reg (rev l) i) /\
  (forall g, reg_has_members g (reg_run l) = true <-> exists i, is_reg (rev l) i = true /\ is_aff (rev l) i g = true).
Proof.
  assert (I : reg_inv (rev l) (reg_run l)).
  { unfold reg_run. rewrite <- (app_nil_r (rev l)). assert (I0 : reg_inv [] reg_new).
    { split; [constructor|]. split; [cbn; auto|]. intros g. cbn. split; [discriminate|intros (i & H); discriminate H]. }
    revert I0. generalize (@nil reg_op) reg_new. induction l as [|o t IH]; intros h r I0; cbn [fold_left rev app]; [exact I0|].
    rewrite <- app_assoc. cbn [app]. apply IH. now apply step_inv. }
  destruct I as (K & M & G). split.
  - intros i. unfold reg_is_registered. specialize (M i). destruct (aget i _); symmetry; apply M.
  - intros g. rewrite G. split; intros (i & H); exists i; [|tauto]. split; [|exact H].
    specialize (M i). destruct (aget i _); [apply M|]. destruct M as [_ M]. rewrite M in H. discriminate H.
Qed.
