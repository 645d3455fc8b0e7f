(** Proofs about event labels. *)
From Verif Require Import Base AMap EventLabels.
Open Scope N_scope.

Section P.
Context {A : Type}.
Implicit Types (s : el_store A) (l : list (el_addr A)).

Definition entry_ssi (p : N * el_mapping (A:=A)) : N := fst (elm_addr (snd p)).
Definition label_nr (i : nat) : N := (1 + N.of_nat i) mod 511.

Definition els_inv (given : list (N * el_addr A)) s : Prop :=
  els_next s = label_nr (length given) /\
  (forall L, els_addr_by_label s L = last_holder L given) /\
  NoDup (map entry_ssi (els_labels s)) /\
  (forall p, In p (els_labels s) -> elm_label (snd p) = fst p) /\
  map fst given = map label_nr (seq 0 (length given)).

Lemma last_holder_snoc L (g : list (N * el_addr A)) x a : last_holder L (g ++ [(x, a)]) = if x =? L then Some a else last_holder L g.
Proof. unfold last_holder. now rewrite fold_left_app. Qed.

Lemma find_some_iff s ssi L : els_inv [] s \/ True -> NoDup (map entry_ssi (els_labels s)) ->
  (forall p, In p (els_labels s) -> elm_label (snd p) = fst p) ->
  (exists a, In (L, mk_elm (ssi, a) L) (els_labels s)) -> els_label_by_ssi s ssi = Some L.
Proof.
  intros _. unfold els_label_by_ssi. induction (els_labels s) as [|p t IH]; intros ND HL [a Ha]; [destruct Ha|].
  cbn [find]. cbn [map] in ND. destruct (N.eqb_spec (fst (elm_addr (snd p))) ssi) as [E|E]; cbn [option_map].
  - destruct Ha as [->|Ha]; [reflexivity|]. exfalso. apply NoDup_cons_iff in ND. destruct ND as [NI _]. apply NI.
    apply in_map_iff. exists (L, mk_elm (ssi, a) L). split; [cbn; symmetry; exact E|exact Ha].
  - destruct Ha as [->|Ha]; [now cbn in E|]. apply IH; [now inversion ND|intros q Q; apply HL; now right|eauto].
Qed.

Lemma find_none s ssi : els_label_by_ssi s ssi = None -> ~ In ssi (map entry_ssi (els_labels s)).
Proof.
  unfold els_label_by_ssi. induction (els_labels s) as [|p t IH]; cbn [find map In]; [tauto|].
  destruct (N.eqb_spec (fst (elm_addr (snd p))) ssi) as [E|E]; [discriminate|]. intros H [Q|Q]; [now apply E|now apply IH].
Qed.

Lemma aget_entry {B} L (v : B) (m : amap B) : aget L m = Some v -> In (L, v) m.
Proof. apply aget_in. Qed.

Lemma nodup_filter_map {B C} (f : B -> C) (g : B -> bool) m : NoDup (map f m) -> NoDup (map f (filter g m)).
Proof.
  induction m as [|x t IH]; cbn [map filter]; intros H; [constructor|]. inversion H as [|? ? NI ND]; subst.
  destruct (g x); [|now apply IH]. cbn [map]. constructor; [|now apply IH].
  intros Q. apply NI. apply in_map_iff in Q. destruct Q as (y & E & Q). apply in_map_iff. exists y. split; [exact E|]. now apply filter_In in Q.
Qed.

Lemma create_inv given s a : els_inv given s ->
  match els_create a s with
  | Ok (x, s') => els_inv (given ++ [(x, a)]) s' /\ els_label_by_ssi s (fst a) = None
  | Err _ => False
  | Panic => els_label_by_ssi s (fst a) <> None
  end.
Proof.
  intros (Hn & Hh & ND & HL & HG). unfold els_create.
  destruct (els_label_by_ssi s (fst a)) as [q|] eqn:E; cbn [assert bind]; [discriminate|].
  unfold els_get_free. split; [|reflexivity]. unfold els_inv. cbn [els_labels els_next].
  rewrite app_length. cbn [length]. repeat split.
  - rewrite Hn. unfold label_nr. lia.
  - intros L. rewrite last_holder_snoc. unfold els_addr_by_label. cbn [els_labels]. rewrite aget_aset, (N.eqb_sym L).
    destruct (els_next s =? L); [reflexivity|]. apply Hh.
  - unfold aset. cbn [map]. constructor; [|now apply nodup_filter_map].
    intros Q. apply (find_none _ _ E). apply in_map_iff in Q. destruct Q as (p & Ep & Q). apply in_adel in Q.
    apply in_map_iff. exists p. split; [exact Ep|tauto].
  - intros p [<-|Q]; [reflexivity|]. apply in_adel in Q. apply HL. tauto.
  - rewrite map_app, HG. replace (length given + 1)%nat with (S (length given)) by lia. rewrite seq_S, map_app. cbn [map fst]. now rewrite Hn.
Qed.

Lemma run_inv l : forall given s, els_inv given s ->
  match els_run s l with
  | Ok (xs, s') => length xs = length l /\ els_inv (given ++ combine xs l) s'
  | Err _ => False
  | Panic => True
  end.
Proof.
  induction l as [|a t IH]; intros given s H; cbn [els_run].
  - split; [reflexivity|]. now rewrite app_nil_r.
  - pose proof (create_inv given s a H) as C. destruct (els_create a s) as [[x s1]|e|]; cbn [bind]; [|contradiction|exact I].
    pose proof (IH _ _ (proj1 C)) as R. destruct (els_run s1 t) as [[xs s2]|e|]; cbn [bind]; [|contradiction|exact I].
    destruct R as [R1 R2]. split; [cbn; lia|]. cbn [combine]. now rewrite <- app_assoc in R2.
Qed.

Lemma inv_new : els_inv [] (@els_new A).
Proof. repeat split; try constructor. intros p []. Qed.

Lemma last_holder_unique L (g : list (N * el_addr A)) i a : nth_error g i = Some (L, a) ->
  (forall j b, (i < j)%nat -> nth_error g j <> Some (L, b)) -> last_holder L g = Some a.
Proof.
  revert i; induction g as [|[x c] g IH] using rev_ind; intros i H U; [now destruct i|].
  rewrite last_holder_snoc. destruct (Nat.lt_ge_cases i (length g)) as [C|C].
  - rewrite nth_error_app1 in H by assumption.
    destruct (N.eqb_spec x L) as [->|E].
    + exfalso. apply (U (length g) c C). rewrite nth_error_app2, Nat.sub_diag by lia. reflexivity.
    + apply (IH i H). intros j b Hj Q. apply (U j b Hj). rewrite nth_error_app1; [exact Q|]. apply nth_error_Some. congruence.
  - rewrite nth_error_app2 in H by assumption. destruct (i - length g)%nat; [|destruct n; discriminate H].
    cbn in H. injection H as -> ->. now rewrite N.eqb_refl.
Qed.

Lemma nth_combine_some {B C} (xs : list B) (l : list C) i x a : nth_error xs i = Some x -> nth_error l i = Some a ->
  nth_error (combine xs l) i = Some (x, a).
Proof. revert l i; induction xs as [|y t IH]; intros [|b l] [|i]; cbn; intros; try discriminate; [congruence|auto]. Qed.

Lemma map_fst_combine {B C} (xs : list B) (l : list C) : length xs = length l -> map fst (combine xs l) = xs.
Proof. revert l; induction xs as [|y t IH]; intros [|b l]; cbn; intros; try lia; [reflexivity|]. now rewrite IH by lia. Qed.

Lemma nth_error_label n i : (i < n)%nat -> nth_error (map label_nr (seq 0 n)) i = Some (label_nr i).
Proof.
  intros H. rewrite nth_error_map.
  rewrite (nth_error_nth' _ 0%nat) by (rewrite seq_length; exact H). rewrite seq_nth by exact H. reflexivity.
Qed.

Lemma label_nr_distinct i j : (i < j < i + 511)%nat -> label_nr i <> label_nr j.
Proof. intros H. unfold label_nr. lia. Qed.

Lemma labels_history l : match els_run els_new l with
  | Ok (xs, s) =>
      length xs = length l /\
      (forall i x, nth_error xs i = Some x -> x < 511) /\
      (forall i j x y, nth_error xs i = Some x -> nth_error xs j = Some y -> (i < j < i + 511)%nat -> x <> y) /\
      (forall x, els_addr_by_label s x = last_holder x (combine xs l)) /\
      (forall i x a, nth_error xs i = Some x -> nth_error l i = Some a -> (length l <= i + 511)%nat ->
         els_addr_by_label s x = Some a /\ els_label_by_ssi s (fst a) = Some x) /\
      (forall a, els_create a s = Panic <-> exists x, els_label_by_ssi s (fst a) = Some x)
  | Err _ => False
  | Panic => True
  end.
Proof.
  pose proof (run_inv l [] els_new inv_new) as H. destruct (els_run els_new l) as [[xs s]|e|]; [|contradiction|exact I].
  destruct H as [Hl H]. cbn [app] in H. pose proof H as (Hn & Hh & ND & HL & HG).
  rewrite map_fst_combine in HG by assumption. rewrite combine_length, Hl, Nat.min_id in HG.
  assert (NE : forall i x, nth_error xs i = Some x -> (i < length l)%nat /\ x = label_nr i).
  { intros i x E. assert (Hi : (i < length l)%nat) by (rewrite <- Hl; apply nth_error_Some; congruence).
    split; [exact Hi|]. rewrite HG, nth_error_label in E by assumption. congruence. }
  split; [exact Hl|].
  split; [intros i x E; destruct (NE i x E) as [_ ->]; unfold label_nr; lia|].
  split; [intros i j x y Ex Ey C; destruct (NE i x Ex) as [_ ->]; destruct (NE j y Ey) as [_ ->]; now apply label_nr_distinct|].
  split; [exact Hh|].
  split.
  - intros i x a Ex Ea W.
    assert (HA : els_addr_by_label s x = Some a).
    { rewrite Hh. apply (last_holder_unique x _ i); [now apply nth_combine_some|].
      intros j b C E. assert (Ej : nth_error xs j = Some x).
      { rewrite <- (map_fst_combine xs l Hl). now rewrite nth_error_map, E. }
      destruct (NE i x Ex) as [Hi E1]. destruct (NE j x Ej) as [Hj E2]. apply (label_nr_distinct i j); [lia|congruence]. }
    split; [exact HA|]. apply find_some_iff; [now right|assumption|assumption|].
    unfold els_addr_by_label in HA. destruct (aget x (els_labels s)) as [m|] eqn:E; [|discriminate HA]. cbn in HA. injection HA as HA.
    apply aget_in in E. pose proof (HL _ E) as E2. cbn [snd fst] in E2. exists (snd a). destruct m as [ad lb]. cbn in HA, E2. subst ad lb.
    now destruct a.
  - intros a. pose proof (create_inv _ s a H) as C. destruct (els_create a s) as [[x s']|e|]; [|contradiction|].
    + split; [discriminate|]. intros [x' E]. destruct C as [_ C]. congruence.
    + split; [|reflexivity]. intros _. destruct (els_label_by_ssi s (fst a)) as [x|]; [eauto|congruence].
Qed.
End P.
