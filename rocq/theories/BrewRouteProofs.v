(** Proofs about the network routing rules. *)
From Coq Require Import String.
From Verif Require Import Base SsiRanges SsiRangesProofs BrewRoute.
Open Scope N_scope.

Lemma existsb_in x l : existsb (N.eqb x) l = true <-> In x l.
Proof. rewrite existsb_exists. split; [intros (y & H & E); apply N.eqb_eq in E; now subst|intros H; exists x; split; [exact H|apply N.eqb_refl]]. Qed.

Lemma gssi_rule c rs ssi : ranges_from_vec rs = Ok (cr_local c) ->
  (brew_gssi_routable c ssi = true <->
   exists b, cr_brew c = Some b /\ ~ (cb_host b = TETRAPACK_HOST /\ ssi <= 90) /\
     ~ (exists r, In r rs /\ in_range ssi r) /\ (forall w, cb_whitelist b = Some w -> In ssi w)).
Proof.
  intros R. unfold brew_gssi_routable. destruct (cr_brew c) as [b|] eqn:E; [|split; [discriminate|intros (b & H & _); discriminate H]].
  unfold is_tetrapack. rewrite E. pose proof (contains_exact rs (cr_local c) ssi R) as CE.
  assert (X : (exists b0, Some b = Some b0 /\ ~ (cb_host b0 = TETRAPACK_HOST /\ ssi <= 90) /\ ~ (exists r, In r rs /\ in_range ssi r) /\ (forall w, cb_whitelist b0 = Some w -> In ssi w)) <->
     (~ (cb_host b = TETRAPACK_HOST /\ ssi <= 90) /\ ~ (exists r, In r rs /\ in_range ssi r) /\ (forall w, cb_whitelist b = Some w -> In ssi w))).
  { split; [intros (b0 & H & Q); injection H as <-; exact Q|intros Q; exists b; auto]. }
  rewrite X. clear X.
  destruct ((cb_host b =? TETRAPACK_HOST)%string && (ssi <=? 90)) eqn:T.
  - apply andb_true_iff in T. destruct T as [T1 T2]. apply String.eqb_eq in T1. apply N.leb_le in T2. split; [discriminate|]. intros (N & _). exfalso. tauto.
  - assert (T' : ~ (cb_host b = TETRAPACK_HOST /\ ssi <= 90)).
    { intros [H1 H2]. apply String.eqb_eq in H1. apply N.leb_le in H2. rewrite H1, H2 in T. discriminate T. }
    destruct (ranges_contains (cr_local c) ssi).
    + split; [discriminate|]. intros (_ & N & _). exfalso. apply N. now apply CE.
    + assert (C' : ~ (exists r, In r rs /\ in_range ssi r)) by (intros Q; apply CE in Q; discriminate Q).
      destruct (cb_whitelist b) as [w|].
      * rewrite existsb_in. split; [intros H; repeat split; auto; intros w' E'; injection E' as <-; exact H|intros (_ & _ & H); now apply H].
      * split; [intros _; repeat split; auto; intros w' E'; discriminate E'|auto].
Qed.

Lemma issi_rule c issi :
  brew_issi_routable c issi = true <->
  exists b, cr_brew c = Some b /\ (cb_host b = TETRAPACK_HOST -> 1000000 <= issi <= 9999999).
Proof.
  unfold brew_issi_routable, is_tetrapack. destruct (cr_brew c) as [b|]; [|split; [discriminate|intros (b & H & _); discriminate H]].
  destruct (String.eqb_spec (cb_host b) TETRAPACK_HOST) as [E|E].
  - rewrite andb_true_iff, !N.leb_le. split; [intros H; exists b; auto|intros (b0 & H & Q); injection H as <-; now apply Q].
  - split; [intros _; exists b; split; [reflexivity|contradiction]|auto].
Qed.

Lemma service_rule c issi :
  is_tetrapack_sds_service c issi = true <->
  (exists b, cr_brew c = Some b /\ cb_host b = TETRAPACK_HOST) /\ (issi = 200999 \/ issi = 262993).
Proof.
  unfold is_tetrapack_sds_service, is_tetrapack, TETRAPACK_SDS_SERVICE_ISSIS. rewrite andb_true_iff, existsb_in. cbn [In].
  destruct (cr_brew c) as [b|].
  - rewrite String.eqb_eq. split; [intros [H Q]; split; [exists b; auto|intuition congruence]|intros [(b0 & H & Q) R]; injection H as <-; intuition congruence].
  - split; [intros [H _]; discriminate H|intros [(b0 & H & _) _]; discriminate H].
Qed.
Lemma active_rule c : (brew_is_active c = true <-> cr_brew c <> None) /\
  (brew_sds_enabled c = true <-> exists b, cr_brew c = Some b /\ cb_sds_enabled b = true).
Proof.
  unfold brew_is_active, brew_sds_enabled. destruct (cr_brew c) as [b|].
  - split; [split; [discriminate|reflexivity]|split; [intros H; exists b; auto|intros (b0 & H & Q); now injection H as <-]].
  - split; [split; [discriminate|congruence]|split; [discriminate|intros (b0 & H & _); discriminate H]].
Qed.
