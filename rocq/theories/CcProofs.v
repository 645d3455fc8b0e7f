(** Call control: what holds of every reachable state, whatever identifiers were handed out. *)
From Coq Require Import Permutation.
From Verif Require Import Base AMap AMapOrder AMapOrderProofs TdmaTime TimeslotAlloc MacFields UmacCircuits CmceFields CmcePdus BrewRoute
  CircuitMgr CallControl CcSpec.
Open Scope nat_scope.

Lemma bind_ok {A B} (x : res A) (f : A -> res B) y : bind x f = Ok y -> exists a, x = Ok a /\ f a = Ok y.
Proof. destruct x; cbn; intros H; try discriminate. eauto. Qed.
(** Take a successful sequence apart. *)
Ltac binv H := let x := fresh "x" in let E := fresh "E" in apply bind_ok in H; destruct H as (x & E & H).

Lemma andthen_ok f g s s' q : andthen f g s = Ok (s', q) ->
  exists s1 q1 q2, f s = Ok (s1, q1) /\ g s1 = Ok (s', q2) /\ q = q1 ++ q2.
Proof. unfold andthen. intros H. binv H. destruct x as [s1 q1]. binv H. destruct x as [s2 q2]. injection H as <- <-. eauto 8. Qed.

(** An invariant of a loop, over the state and anything folded over the messages. *)
Lemma each_inv {A V} (view : V -> list cc_msg -> V) (f : A -> cc_act) (P : cc -> V -> Prop) l :
  (forall v, view v [] = v) -> (forall v q q', view v (q ++ q') = view (view v q) q') ->
  (forall x s s' q v, In x l -> P s v -> f x s = Ok (s', q) -> P s' (view v q)) ->
  forall s s' q v, P s v -> each f l s = Ok (s', q) -> P s' (view v q).
Proof.
  intros V0 VA. induction l as [|x t IH]; intros H s s' q v HP E; cbn [each] in E.
  - injection E as <- <-. now rewrite V0.
  - apply andthen_ok in E. destruct E as (s1 & q1 & q2 & E1 & E2 & ->). rewrite VA.
    apply (IH (fun y s s' q v Hy => H y s s' q v (or_intror Hy)) s1); [|assumption].
    apply (H x s); [now left|assumption|assumption].
Qed.
Lemma each_inv0 {A} (f : A -> cc_act) (P : cc -> Prop) l :
  (forall x s s' q, In x l -> P s -> f x s = Ok (s', q) -> P s') ->
  forall s s' q, P s -> each f l s = Ok (s', q) -> P s'.
Proof.
  intros H s s' q HP E. refine (each_inv (fun (_ : unit) _ => tt) f (fun s _ => P s) l _ _ _ s s' q tt HP E); auto.
  - now intros [].
  - intros x s1 s2 q1 _. apply H.
Qed.

(** ** Releasing calls *)

Definition keys (s : cc) : Prop := forall id, present (aget id (cc_active s)) = present (aget id (cc_cached s)).

(** The calls [D] are gone, nothing else changed but circuits and timeslots. *)
Record released (D : N -> bool) (s s' : cc) : Prop := {
  rl_active : forall k, aget k (cc_active s') = if D k then None else aget k (cc_active s);
  rl_cached : forall k, aget k (cc_cached s') = if D k then None else aget k (cc_cached s);
  rl_nodup : NoDup (akeys (cc_active s)) -> NoDup (akeys (cc_active s'));
  rl_time : cc_dltime s' = cc_dltime s;
  rl_subs : cc_subs s' = cc_subs s;
  rl_listeners : cc_listeners s' = cc_listeners s;
  rl_call : cm_next_call (cc_circ s') = cm_next_call (cc_circ s);
  rl_usage : cm_next_usage (cc_circ s') = cm_next_usage (cc_circ s) }.

Lemma released_refl s : released (fun _ => false) s s.
Proof. now constructor. Qed.
Lemma released_trans D1 D2 s s1 s2 : released D1 s s1 -> released D2 s1 s2 -> released (fun k => D1 k || D2 k) s s2.
Proof.
  intros [A1 C1 N1 T1 S1 L1 I1 U1] [A2 C2 N2 T2 S2 L2 I2 U2]. constructor; try congruence; auto; intros k.
  - rewrite A2, A1. now destruct (D1 k), (D2 k).
  - rewrite C2, C1. now destruct (D1 k), (D2 k).
Qed.
Lemma released_ext D D' s s' : (forall k, D k = D' k) -> released D s s' -> released D' s s'.
Proof. intros E [A1 C1 N1 T1 S1 L1 I1 U1]. constructor; try assumption; intros k; rewrite <- E; auto. Qed.
(** Only the calls that exist matter. *)
Lemma released_weak D D' s s' : keys s -> (forall k, aget k (cc_active s) <> None -> D k = D' k) -> released D s s' -> released D' s s'.
Proof.
  intros K E [A1 C1 N1 T1 S1 L1 I1 U1]. constructor; auto; intros k; specialize (K k).
  - rewrite A1. destruct (aget k (cc_active s)) eqn:G; [|now destruct (D k), (D' k)]. rewrite (E k); [reflexivity|congruence].
  - rewrite C1. destruct (aget k (cc_active s)) eqn:G.
    + rewrite (E k); [reflexivity|congruence].
    + destruct (aget k (cc_cached s)); [discriminate|now destruct (D k), (D' k)].
Qed.
Lemma released_keys D s s' : keys s -> released D s s' -> keys s'.
Proof. intros K R id. rewrite (rl_active _ _ _ R), (rl_cached _ _ _ R). destruct (D id); [reflexivity|apply K]. Qed.

Lemma cm_close_ids d ts m c m' : cm_close d ts m = Ok (c, m') -> cm_next_call m' = cm_next_call m /\ cm_next_usage m' = cm_next_usage m.
Proof. unfold cm_close. destruct d; intros H; try discriminate; binv H; injection H as <- <-; now cbn. Qed.

Lemma forget_released id s s' :
  cc_active s' = cc_active s -> cc_cached s' = cc_cached s -> cc_dltime s' = cc_dltime s -> cc_subs s' = cc_subs s -> cc_listeners s' = cc_listeners s ->
  cm_next_call (cc_circ s') = cm_next_call (cc_circ s) -> cm_next_usage (cc_circ s') = cm_next_usage (cc_circ s) ->
  released (N.eqb id) s (forget_call id s').
Proof.
  intros EA EC. constructor; cbn [forget_call cc_set_active cc_set_cached cc_active cc_cached cc_dltime cc_subs cc_listeners cc_circ]; try assumption.
  - intros k. rewrite aget_adel, EA, N.eqb_sym. reflexivity.
  - intros k. rewrite aget_adel, EC, N.eqb_sym. reflexivity.
  - rewrite EA. apply nodup_adel.
Qed.

Lemma release_released cfg id cause s s' q : keys s -> release_call cfg id cause s = Ok (s', q) -> released (N.eqb id) s s'.
Proof.
  intros K H. unfold release_call in H. pose proof (K id) as Kid. destruct (aget id (cc_cached s)) as [[p a]|] eqn:EC.
  - binv H. destruct (aget id (cc_active s)) as [c|] eqn:EA; [|discriminate].
    binv H. destruct x0 as [closed m]. injection H as <- <-. apply cm_close_ids in E0. destruct E0.
    apply forget_released; try reflexivity; assumption.
  - injection H as <- <-. destruct (aget id (cc_active s)) eqn:EA; [discriminate|].
    apply (released_weak (fun _ => false)); [assumption| |apply released_refl].
    intros k Hk. symmetry. apply N.eqb_neq. intros ->. congruence.
Qed.

Lemma each_released {A} (D : A -> N -> bool) (f : A -> cc_act) l :
  (forall x s s' q, In x l -> keys s -> f x s = Ok (s', q) -> released (D x) s s') ->
  forall s s' q, keys s -> each f l s = Ok (s', q) -> released (fun k => existsb (fun x => D x k) l) s s'.
Proof.
  induction l as [|x t IH]; intros H s s' q K E; cbn [each] in E.
  - injection E as <- <-. apply released_refl.
  - apply andthen_ok in E. destruct E as (s1 & q1 & q2 & E1 & E2 & ->). cbn [existsb].
    pose proof (H x s s1 q1 (or_introl eq_refl) K E1) as R1.
    apply (released_trans (D x) _ s s1 s'); [assumption|]. apply (IH (fun y s s' q Hy => H y s s' q (or_intror Hy)) s1 s' q2); [|assumption].
    now apply (released_keys (D x) s).
Qed.

Lemma drop_released cfg hint g s s' q : keys s -> NoDup (akeys (cc_active s)) -> drop_unlistened cfg hint g s = Ok (s', q) ->
  released (fun k => match aget k (cc_active s) with Some c => negb (has_listener g s) && (ac_dest c =? g)%N | None => false end) s s'.
Proof.
  intros K ND H. unfold drop_unlistened in H. destruct (has_listener g s).
  - injection H as <- <-. apply (released_ext (fun _ => false)); [|apply released_refl]. intros k. now destruct (aget k (cc_active s)).
  - apply (each_released (fun p k => (fst p =? k)%N)) in H; [|clear H|assumption].
    + apply (released_weak _ _ _ _ K) with (2 := H). intros k Hk. destruct (aget k (cc_active s)) as [c|] eqn:E; [|congruence]. clear Hk. cbn [negb andb].
      apply eq_true_iff_eq. rewrite existsb_exists, N.eqb_eq. split.
      * intros ([k' c'] & Hin & Ek). cbn [fst] in Ek. apply N.eqb_eq in Ek. subst k'. apply filter_In in Hin. destruct Hin as [Hin Hd].
        apply arrange_in in Hin; [|assumption]. cbn [snd] in Hd. apply N.eqb_eq in Hd. congruence.
      * intros Ed. exists (k, c). cbn [fst]. rewrite N.eqb_refl. split; [|reflexivity]. apply filter_In. cbn [snd]. rewrite Ed, N.eqb_refl.
        split; [now apply arrange_in|reflexivity].
    + intros [id call] s1 s2 q1 Hin K1 E. apply andthen_ok in E. destruct E as (s3 & q3 & q4 & E1 & E2 & ->). cbn [fst].
      assert (s3 = s1) by (destruct (ac_origin call); unfold when, nothing, to_brew in E1; [|destruct (brew_gssi_routable cfg g)]; congruence).
      subst s3. now apply release_released in E2.
Qed.

(** ** Counting listeners *)

Definition count (g : N) (m : amap (list N)) : nat := length (filter (fun p => memN g (snd p)) m).
Definition nz (n : nat) : option N := match n with O => None | S _ => Some (N.of_nat n) end.

Lemma count_cons g k l m : count g ((k, l) :: m) = Nat.b2n (memN g l) + count g m.
Proof. unfold count. cbn [filter snd]. now destruct (memN g l). Qed.
Lemma count_adel g k m : NoDup (akeys m) -> count g m = count g (adel k m) + match aget k m with Some l => Nat.b2n (memN g l) | None => 0 end.
Proof.
  induction m as [|[q l] t IH]; intros ND; [reflexivity|]. cbn [akeys map fst] in ND. apply NoDup_cons_iff in ND. destruct ND as [NI ND].
  cbn [adel filter fst aget]. fold (adel k t). destruct (N.eqb_spec k q) as [E|E]; cbn [negb].
  - subst q. rewrite count_cons. specialize (IH ND). replace (aget k t) with (@None (list N)) in IH by (symmetry; now apply aget_none). lia.
  - rewrite !count_cons, (IH ND). lia.
Qed.
Lemma count_aset g k l m : NoDup (akeys m) ->
  count g (aset k l m) + match aget k m with Some l0 => Nat.b2n (memN g l0) | None => 0 end = count g m + Nat.b2n (memN g l).
Proof. intros ND. unfold aset. rewrite count_cons. rewrite (count_adel g k m ND). lia. Qed.

Lemma count_pos g m : 0 < count g m -> exists issi l, aget issi m = Some l \/ In (issi, l) m /\ In g l.
Proof.
  unfold count. destruct (filter _ m) as [|[i l] t] eqn:E; cbn; [lia|]. intros _.
  assert (H : In (i, l) (filter (fun p => memN g (snd p)) m)) by (rewrite E; now left). apply filter_In in H. cbn [snd] in H.
  exists i, l. right. split; [apply H|now apply memN_true].
Qed.

Definition occ (g : N) (l : list N) : nat := count_occ N.eq_dec l g.

Lemma inc_nz l g n : (forall x, aget x l = nz (n x)) -> forall x, aget x (inc_listener l g) = nz (n x + if N.eq_dec g x then 1 else 0).
Proof.
  intros H x. unfold inc_listener. rewrite aget_aset. rewrite H. destruct (N.eqb_spec x g) as [E|E].
  - subst x. destruct (N.eq_dec g g) as [_|E]; [|easy]. rewrite Nat.add_1_r. cbn [nz]. f_equal. destruct (n g); cbn [nz]; lia.
  - destruct (N.eq_dec g x) as [E'|_]; [congruence|]. now rewrite Nat.add_0_r.
Qed.
Lemma dec_nz l g n : (forall x, aget x l = nz (n x)) -> (0 < n g) -> forall x, aget x (dec_listener l g) = nz (n x - if N.eq_dec g x then 1 else 0).
Proof.
  intros H P x. unfold dec_listener. rewrite H. destruct (n g) as [|k] eqn:E; [lia|]. cbn [nz].
  destruct (N.leb_spec (N.of_nat (S k)) 1).
  - rewrite aget_adel. destruct (N.eqb_spec x g) as [E'|E'].
    + subst x. destruct (N.eq_dec g g) as [_|]; [|easy]. rewrite E. now replace (S k - 1) with 0 by lia.
    + destruct (N.eq_dec g x); [congruence|]. now rewrite Nat.sub_0_r.
  - rewrite aget_aset. destruct (N.eqb_spec x g) as [E'|E'].
    + subst x. destruct (N.eq_dec g g) as [_|]; [|easy]. rewrite E. replace (S k - 1) with k by lia. destruct k; [lia|]. cbn [nz]. f_equal. lia.
    + destruct (N.eq_dec g x); [congruence|]. now rewrite Nat.sub_0_r.
Qed.
Lemma fold_inc new : forall l n, (forall x, aget x l = nz (n x)) -> forall x, aget x (fold_left inc_listener new l) = nz (n x + occ x new).
Proof.
  induction new as [|g t IH]; intros l n H x; cbn [fold_left occ count_occ]; [now rewrite Nat.add_0_r|].
  rewrite (IH _ _ (inc_nz l g n H)). f_equal. unfold occ. destruct (N.eq_dec g x); lia.
Qed.
Lemma fold_dec gone : forall l n, NoDup gone -> (forall x, aget x l = nz (n x)) -> (forall g, In g gone -> 0 < n g) ->
  forall x, aget x (fold_left dec_listener gone l) = nz (n x - occ x gone).
Proof.
  induction gone as [|g t IH]; intros l n ND H P x; cbn [fold_left occ count_occ]; [now rewrite Nat.sub_0_r|].
  apply NoDup_cons_iff in ND. destruct ND as [NI ND].
  rewrite (IH _ _ ND (dec_nz l g n H (P g (or_introl eq_refl)))).
  - f_equal. unfold occ. destruct (N.eq_dec g x); lia.
  - intros y Hy. destruct (N.eq_dec g y) as [->|]; [contradiction|]. specialize (P y (or_intror Hy)). lia.
Qed.

Lemma insert_groups_spec groups : forall l l' new, NoDup l -> insert_groups groups l = (l', new) ->
  NoDup l' /\ forall x, Nat.b2n (memN x l') = Nat.b2n (memN x l) + occ x new.
Proof.
  induction groups as [|g t IH]; intros l l' new ND H; cbn [insert_groups] in H.
  - injection H as <- <-. split; [assumption|]. intros x. cbn. lia.
  - destruct (memN g l) eqn:M; [now apply (IH l)|]. destruct (insert_groups t (g :: l)) as [l1 n1] eqn:E. injection H as <- <-.
    apply IH in E; [|constructor; [now apply memN_false|assumption]]. destruct E as [ND1 E]. split; [assumption|]. intros x. rewrite E.
    cbn [memN existsb occ count_occ]. fold (memN x l). destruct (N.eqb_spec x g) as [->|Ex].
    + destruct (N.eq_dec g g) as [_|]; [|easy]. rewrite M. cbn. unfold occ. lia.
    + destruct (N.eq_dec g x); [congruence|]. cbn [orb]. unfold occ. lia.
Qed.
Lemma memN_filter x g l : memN x (filter (fun y => negb (g =? y)%N) l) = (memN x l && negb (g =? x)%N)%bool.
Proof.
  apply eq_true_iff_eq. rewrite memN_true, filter_In, andb_true_iff, memN_true. reflexivity.
Qed.
Lemma remove_groups_spec groups : forall l l' gone, NoDup l -> remove_groups groups l = (l', gone) ->
  NoDup l' /\ NoDup gone /\ (forall x, Nat.b2n (memN x l) = Nat.b2n (memN x l') + occ x gone) /\ (forall x, In x gone -> In x l).
Proof.
  induction groups as [|g t IH]; intros l l' gone ND H; cbn [remove_groups] in H.
  - injection H as <- <-. split; [assumption|]. split; [constructor|]. split; [intros x; cbn; lia|easy].
  - destruct (memN g l) eqn:M; [|now apply (IH l)].
    destruct (remove_groups t (filter (fun x => negb (g =? x)%N) l)) as [l1 g1] eqn:E. injection H as <- <-.
    apply IH in E; [|now apply NoDup_filter]. destruct E as (ND1 & ND2 & E & Sub). split; [assumption|]. split.
    + constructor; [|assumption]. intros Hin. apply Sub in Hin. apply filter_In in Hin. destruct Hin as [_ Hin]. rewrite N.eqb_refl in Hin. discriminate.
    + split.
      * intros x. specialize (E x). rewrite memN_filter in E. cbn [occ count_occ]. destruct (N.eqb_spec g x) as [->|Ex].
        -- destruct (N.eq_dec x x) as [_|]; [|easy]. rewrite M in *. cbn [negb andb Nat.b2n] in *. unfold occ in *. lia.
        -- destruct (N.eq_dec g x); [congruence|]. cbn [negb] in E. rewrite andb_true_r in E. exact E.
      * intros x [<-|Hx]; [now apply memN_true|]. apply Sub in Hx. now apply filter_In in Hx.
Qed.

(** ** The invariant *)

(** [G]: groups about to be checked for listeners; [pend]: groups still to be uncounted. *)
Record W (G pend : list N) (s : cc) : Prop := {
  w_nodup : NoDup (akeys (cc_active s));
  w_keys : keys s;
  w_floor : forall id c, aget id (cc_active s) = Some c -> ac_tx c = negb (present (ac_hang c));
  w_subs : NoDup (akeys (cc_subs s));
  w_sets : forall issi l, aget issi (cc_subs s) = Some l -> NoDup l;
  w_count : forall g, aget g (cc_listeners s) = nz (count g (cc_subs s) + occ g pend);
  w_listen : forall id c, aget id (cc_active s) = Some c -> has_listener (ac_dest c) s = true \/ In (ac_dest c) G }.

Lemma W_new : W [] [] cc_new.
Proof. constructor; cbn; try easy; constructor. Qed.

Lemma W_released D G pend s s' : W G pend s -> released D s s' -> W G pend s'.
Proof.
  intros [ND K F S1 S2 C L] R. pose proof (released_keys _ _ _ K R) as K'. destruct R as [A Ca Nn T Su Li I U].
  assert (X : forall id c, aget id (cc_active s') = Some c -> aget id (cc_active s) = Some c).
  { intros id c H. rewrite A in H. now destruct (D id). }
  constructor; auto.
  - intros id c H. apply (F id c), X, H.
  - now rewrite Su.
  - rewrite Su. exact S2.
  - intros g. rewrite Li, Su. apply C.
  - intros id c H. apply X in H. apply L in H. unfold has_listener. rewrite Li. exact H.
Qed.
(** After [drop_unlistened g] the group need not be checked any more. *)
Lemma W_drop cfg hint g G pend s s' q : W (g :: G) pend s -> drop_unlistened cfg hint g s = Ok (s', q) -> W G pend s'.
Proof.
  intros H E. pose proof (drop_released cfg hint g s s' q (w_keys _ _ _ H) (w_nodup _ _ _ H) E) as R.
  pose proof (W_released _ _ _ _ _ H R) as [ND K F S1 S2 C L]. constructor; auto.
  intros id c Hc. destruct (L id c Hc) as [Hl|[Hg|Hg]]; [now left| |now right].
  rewrite (rl_active _ _ _ R) in Hc. destruct (aget id (cc_active s)) as [c0|] eqn:E0; [|discriminate].
  destruct (negb (has_listener g s) && (ac_dest c0 =? g)%N)%bool eqn:EB; [discriminate|]. injection Hc as ->.
  subst g. rewrite N.eqb_refl, andb_true_r in EB. apply negb_false_iff in EB. left. unfold has_listener in *. rewrite (rl_listeners _ _ _ R). exact EB.
Qed.
Lemma W_drops cfg hint gone : forall G pend s s' q, W (gone ++ G) pend s -> each (drop_unlistened cfg hint) gone s = Ok (s', q) -> W G pend s'.
Proof.
  induction gone as [|g t IH]; intros G pend s s' q H E; cbn [each app] in *.
  - injection E as <- <-. exact H.
  - apply andthen_ok in E. destruct E as (s1 & q1 & q2 & E1 & E2 & ->). apply (IH G pend s1 s' q2); [|assumption]. now apply (W_drop cfg hint g _ _ s s1 q1).
Qed.
Lemma W_weaken G G' pend s : (forall g, In g G -> In g G') -> W G pend s -> W G' pend s.
Proof. intros I [ND K F S1 S2 C L]. constructor; auto. intros id c H. destruct (L id c H); auto. Qed.

(** Changing one call, keeping its group. *)
Lemma W_call G pend s s' id c c' :
  W G pend s -> aget id (cc_active s) = Some c -> ac_dest c' = ac_dest c -> ac_tx c' = negb (present (ac_hang c')) ->
  cc_active s' = aset id c' (cc_active s) -> cc_cached s' = cc_cached s -> cc_subs s' = cc_subs s -> cc_listeners s' = cc_listeners s -> W G pend s'.
Proof.
  intros [ND K F S1 S2 C L] Hc Ed Et EA EC ES EL. constructor.
  - rewrite EA. now apply nodup_aset.
  - intros k. rewrite EA, EC, aget_aset. destruct (N.eqb_spec k id) as [->|]; [|apply K]. specialize (K id). rewrite Hc in K. exact K.
  - intros k x. rewrite EA, aget_aset. destruct (N.eqb_spec k id); intros H; [congruence|now apply (F k)].
  - now rewrite ES.
  - rewrite ES. exact S2.
  - intros g. rewrite EL, ES. apply C.
  - intros k x. rewrite EA, aget_aset. unfold has_listener. rewrite EL. destruct (N.eqb_spec k id); intros H.
    + assert (E : x = c') by congruence. rewrite E, Ed. apply (L id c Hc).
    + now apply (L k).
Qed.
(** A new call. *)
Lemma W_new_call G pend s s' id c p :
  W G pend s -> has_listener (ac_dest c) s = true -> ac_tx c = negb (present (ac_hang c)) ->
  cc_active s' = aset id c (cc_active s) -> cc_cached s' = aset id p (cc_cached s) -> cc_subs s' = cc_subs s -> cc_listeners s' = cc_listeners s -> W G pend s'.
Proof.
  intros [ND K F S1 S2 C L] Hl Et EA EC ES EL. constructor.
  - rewrite EA. now apply nodup_aset.
  - intros k. rewrite EA, EC, !aget_aset. destruct (N.eqb_spec k id); [reflexivity|apply K].
  - intros k x. rewrite EA, aget_aset. destruct (N.eqb_spec k id); intros H; [congruence|now apply (F k)].
  - now rewrite ES.
  - rewrite ES. exact S2.
  - intros g. rewrite EL, ES. apply C.
  - intros k x. rewrite EA, aget_aset. unfold has_listener. rewrite EL. destruct (N.eqb_spec k id); intros H.
    + left. assert (E : x = c) by congruence. rewrite E. exact Hl.
    + now apply (L k).
Qed.
(** Nothing this invariant speaks of changed. *)
Lemma W_same G pend s s' : W G pend s -> cc_active s' = cc_active s -> cc_cached s' = cc_cached s -> cc_subs s' = cc_subs s ->
  cc_listeners s' = cc_listeners s -> W G pend s'.
Proof.
  intros [ND K F S1 S2 C L] EA EC ES EL. constructor.
  - now rewrite EA.
  - intros k. rewrite EA, EC. apply K.
  - rewrite EA. exact F.
  - now rewrite ES.
  - rewrite ES. exact S2.
  - intros g. rewrite EL, ES. apply C.
  - intros k c. rewrite EA. unfold has_listener. rewrite EL. apply L.
Qed.

Lemma has_listener_nz g s n : aget g (cc_listeners s) = nz n -> has_listener g s = (0 <? n).
Proof. unfold has_listener. intros ->. destruct n; cbn [nz]; [reflexivity|]. destruct (N.ltb_spec 0 (N.of_nat (S n))); [reflexivity|lia]. Qed.

(** ** Subscriber updates *)
Lemma occ_in g l : NoDup l -> occ g l = Nat.b2n (memN g l).
Proof.
  intros ND. unfold occ. destruct (memN g l) eqn:E.
  - apply memN_true in E. now apply NoDup_count_occ'.
  - apply memN_false in E. now apply count_occ_not_In.
Qed.

Lemma W_update cfg hg hint issi groups action s s' q : W [] [] s -> subscriber_update cfg hg hint issi groups action s = Ok (s', q) -> W [] [] s'.
Proof.
  intros H E. destruct action; cbn [subscriber_update] in E.
  - (* register *)
    destruct (aget issi (cc_subs s)) eqn:Ei; [congruence|]. injection E as <- <-. destruct H as [ND K F S1 S2 C L]. constructor; auto.
    + now apply nodup_aset.
    + intros i l. cbn [cc_set_subs cc_subs]. rewrite aget_aset. destruct (i =? issi)%N; intros H; [injection H as <-; constructor|now apply (S2 i)].
    + intros g. cbn [cc_set_subs cc_subs cc_listeners]. rewrite C. f_equal. pose proof (count_aset g issi [] (cc_subs s) S1) as Q. rewrite Ei in Q. cbn [memN existsb Nat.b2n occ count_occ] in *. lia.
  - (* deregister *)
    destruct (aget issi (cc_subs s)) as [existing|] eqn:Ei; [|injection E as <- <-; exact H].
    assert (NDe : NoDup existing) by (apply (w_sets _ _ _ H issi), Ei).
    pose proof (arrange_set_nodup hg existing NDe) as NDl.
    assert (Oe : forall g, occ g (arrange_set hg existing) = Nat.b2n (memN g existing)).
    { intros g. rewrite occ_in by assumption. f_equal. apply eq_true_iff_eq. rewrite !memN_true. apply arrange_set_in. }
    set (l := arrange_set hg existing) in *. clearbody l.
    assert (W [] l (cc_set_subs (adel issi (cc_subs s)) s)).
    { destruct H as [ND K F S1 S2 C L]. constructor; auto.
      - now apply nodup_adel.
      - intros i x. cbn [cc_set_subs cc_subs]. rewrite aget_adel. destruct (i =? issi)%N; [discriminate|apply S2].
      - intros g. cbn [cc_set_subs cc_subs cc_listeners]. rewrite C, (count_adel g issi (cc_subs s) S1), Ei, Oe. cbn. f_equal. lia. }
    clear H Oe Ei NDe. revert E H0. generalize (cc_set_subs (adel issi (cc_subs s)) s) as s0. clear s existing. revert s' q NDl.
    induction l as [|g t IH]; intros s' q NDl s0 E H; cbn [each] in E.
    + injection E as <- <-. exact H.
    + apply andthen_ok in E. destruct E as (s1 & q1 & q2 & E1 & E2 & ->). apply NoDup_cons_iff in NDl. destruct NDl as [NI NDl].
      apply (IH s' q2 NDl s1 E2). apply (W_drop cfg hint g [] t _ s1 q1) in E1; [exact E1|]. clear E1 E2 IH.
      destruct H as [ND K F S1 S2 C L].
      assert (C' : forall x, aget x (dec_listener (cc_listeners s0) g) = nz (count x (cc_subs s0) + occ x t)).
      { intros x. rewrite (dec_nz _ g _ C).
        - f_equal. cbn [occ count_occ]. unfold occ. destruct (N.eq_dec g x); lia.
        - cbn [occ count_occ]. destruct (N.eq_dec g g); [lia|easy]. }
      constructor; auto. intros id c Hc. cbn [cc_set_listeners cc_active] in Hc. destruct (L id c Hc) as [Hl|[]].
      destruct (N.eq_dec g (ac_dest c)) as [Eg|Eg]; [right; now left|]. left.
      rewrite (has_listener_nz _ _ _ (C (ac_dest c))) in Hl. rewrite (has_listener_nz (ac_dest c) (cc_set_listeners _ s0) _ (C' (ac_dest c))).
      cbn [occ count_occ] in Hl. destruct (N.eq_dec g (ac_dest c)); [contradiction|]. exact Hl.
  - (* affiliate *)
    set (entry := match aget issi (cc_subs s) with Some l => l | None => [] end) in *.
    destruct (insert_groups groups entry) as [l' new] eqn:Eg. injection E as <- <-.
    destruct H as [ND K F S1 S2 C L].
    assert (NDe : NoDup entry) by (unfold entry; destruct (aget issi (cc_subs s)) eqn:Ei; [now apply (S2 issi)|constructor]).
    apply insert_groups_spec in Eg; [|assumption]. destruct Eg as [NDl' Oc].
    assert (C' : forall x, aget x (fold_left inc_listener new (cc_listeners s)) = nz (count x (aset issi l' (cc_subs s)) + 0)).
    { intros x. rewrite (fold_inc new _ _ C). f_equal. cbn [occ count_occ]. pose proof (count_aset x issi l' (cc_subs s) S1) as Q. rewrite Oc in Q.
      unfold entry in Q. destruct (aget issi (cc_subs s)); cbn [memN existsb Nat.b2n] in Q; lia. }
    constructor; auto.
    + now apply nodup_aset.
    + intros i x. cbn [cc_set_listeners cc_set_subs cc_subs]. rewrite aget_aset. destruct (i =? issi)%N; intros H; [congruence|now apply (S2 i)].
    + intros id c Hc. cbn [cc_set_listeners cc_set_subs cc_active] in Hc. destruct (L id c Hc) as [Hl|[]]. left.
      rewrite (has_listener_nz _ _ _ (C (ac_dest c))) in Hl.
      erewrite has_listener_nz by (cbn [cc_set_listeners cc_listeners]; apply (fold_inc new _ _ C)). apply Nat.ltb_lt in Hl. apply Nat.ltb_lt. lia.
  - (* deaffiliate *)
    destruct (aget issi (cc_subs s)) as [entry|] eqn:Ei.
    + destruct (remove_groups groups entry) as [l' gone] eqn:Eg. destruct H as [ND K F S1 S2 C L].
      assert (NDe : NoDup entry) by (now apply (S2 issi)).
      apply remove_groups_spec in Eg; [|assumption]. destruct Eg as (NDl' & NDg & Oc & Sub).
      apply W_drops with (G := []) (pend := []) in E; [exact E|]. rewrite app_nil_r. clear E.
      assert (Pos : forall g, In g gone -> 0 < count g (cc_subs s) + occ g []).
      { intros g Hg. rewrite (count_adel g issi _ S1), Ei. apply Sub, memN_true in Hg. rewrite Hg. cbn. lia. }
      pose proof (fold_dec gone _ _ NDg C Pos) as D.
      constructor; auto.
      * now apply nodup_aset.
      * intros i x. cbn [cc_set_listeners cc_set_subs cc_subs]. rewrite aget_aset. destruct (i =? issi)%N; intros H; [congruence|now apply (S2 i)].
      * intros g. cbn [cc_set_listeners cc_set_subs cc_subs cc_listeners]. rewrite D. f_equal. cbn [occ count_occ].
        pose proof (count_aset g issi l' (cc_subs s) S1) as Q. rewrite Ei in Q. specialize (Oc g). lia.
      * intros id c Hc. cbn [cc_set_listeners cc_set_subs cc_active] in Hc. destruct (L id c Hc) as [Hl|[]].
        destruct (in_dec N.eq_dec (ac_dest c) gone) as [Hg|Hg]; [now right|]. left.
        rewrite (has_listener_nz _ _ _ (C (ac_dest c))) in Hl.
        erewrite has_listener_nz by (cbn [cc_set_listeners cc_listeners]; apply D).
        replace (occ (ac_dest c) gone) with 0 by (symmetry; now apply count_occ_not_In). now rewrite Nat.sub_0_r.
    + apply (W_drops cfg hint groups [] [] s s' q); [|assumption]. apply (W_weaken [] ); [easy|exact H].
Qed.

(** ** Set-up, floor control, time *)

Lemma find_some_in {A} (f : N * A -> bool) h (m : amap A) k v : NoDup (akeys m) -> find f (arrange h m) = Some (k, v) -> aget k m = Some v /\ f (k, v) = true.
Proof. intros ND H. apply find_some in H. destruct H as [H1 H2]. split; [now apply arrange_in in H1|assumption]. Qed.

Lemma W_setup cfg i p s s' q : W [] [] s -> rx_u_setup cfg i p s = Ok (s', q) -> W [] [] s'.
Proof.
  intros H E. unfold rx_u_setup in E. destruct (negb (feature_check p)); [congruence|].
  destruct (u_setup_called_party_ssi p) as [dest|]; [|congruence]. destruct (has_listener dest s) eqn:Hl; cbn [negb] in E; [|congruence].
  binv E. destruct x as [[r m] slots]. destruct r as [c|e].
  - binv E. binv E. binv E. injection E as <- <-. clear E1 E2 E3.
    apply (W_new_call [] [] s _ (ci_call c)
             (mk_call (OLocal (mi_addr i)) dest (ad_ssi (mi_addr i)) (ci_ts c) (ci_usage c) true None None)
             (local_setup i p (ci_call c), gssi_addr dest)); try reflexivity; assumption.
  - injection E as <- <-. now apply (W_same [] [] s).
Qed.

Lemma W_tx_ceased cfg p s s' q : W [] [] s -> rx_u_tx_ceased cfg p s = Ok (s', q) -> W [] [] s'.
Proof.
  intros H E. unfold rx_u_tx_ceased in E. set (id := u_tx_ceased_call_identifier p) in *. destruct (aget id (cc_active s)) as [c|] eqn:Ec; [|congruence].
  destruct (negb (ac_tx c) && present (ac_hang c)); [congruence|].
  assert (G : W [] [] (cc_set_active (aset id (call_to_hang (cc_dltime s) c) (cc_active s)) s)).
  { apply (W_call [] [] s _ id c (call_to_hang (cc_dltime s) c)); try reflexivity; assumption. }
  cbn [cc_set_active cc_cached] in E. destruct (aget id (cc_cached s)) as [[d a]|].
  - binv E. injection E as <- <-. exact G.
  - injection E as <- <-. exact G.
Qed.

Lemma W_tx_demand cfg i p s s' q : W [] [] s -> rx_u_tx_demand cfg i p s = Ok (s', q) -> W [] [] s'.
Proof.
  intros H E. unfold rx_u_tx_demand in E. set (id := u_tx_demand_call_identifier p) in *. destruct (aget id (cc_active s)) as [c|] eqn:Ec; [|congruence].
  destruct (ac_tx c); [congruence|].
  match type of E with context [cc_set_active (aset id ?c' _) s] =>
    assert (G : W [] [] (cc_set_active (aset id c' (cc_active s)) s)) by (apply (W_call [] [] s _ id c c'); try reflexivity; assumption) end.
  cbn [cc_set_active cc_cached] in E. destruct (aget id (cc_cached s)) as [[d a]|].
  - binv E. binv E. destruct x0 as [s1 q1]. injection E as <- <-. unfold send_tx_granted in E1. binv E1. injection E1 as <- _. exact G.
  - injection E as <- <-. exact G.
Qed.

Lemma W_release cfg id cause s s' q : W [] [] s -> release_call cfg id cause s = Ok (s', q) -> W [] [] s'.
Proof. intros H E. apply (W_released _ _ _ _ _ H (release_released cfg id cause s s' q (w_keys _ _ _ H) E)). Qed.

Lemma W_disconnect cfg i p s s' q : W [] [] s -> rx_u_disconnect cfg i p s = Ok (s', q) -> W [] [] s'.
Proof.
  intros H E. unfold rx_u_disconnect in E. destruct (aget _ (cc_active s)) as [c|]; [|congruence].
  destruct (match ac_origin c with OLocal a => (ad_ssi a =? ad_ssi (mi_addr i))%N | ONetwork _ => false end).
  - now apply W_release in E.
  - binv E. congruence.
Qed.

Lemma W_parsed {A} (r : Codec.reader A) i k s s' q : (forall p s s' q, W [] [] s -> k p s = Ok (s', q) -> W [] [] s') ->
  W [] [] s -> parsed r i k s = Ok (s', q) -> W [] [] s'.
Proof. intros Hk H E. unfold parsed in E. destruct (r (mi_sdu i)) as [[p b]| |]; [now apply (Hk p s s' q)|congruence|discriminate]. Qed.

Lemma W_uplink cfg i s s' q : W [] [] s -> cc_rx_ind cfg i s = Ok (s', q) -> W [] [] s'.
Proof.
  intros H E. unfold cc_rx_ind in E. binv E. destruct x as [t|]; [|congruence].
  destruct (memN t _); [|congruence]. unfold route_xx_deliver in E. binv E. destruct x as [t'|]; [|congruence].
  destruct (negb (ul_type_known t')); [congruence|].
  repeat match type of E with (if ?b then _ else _) = _ => destruct b end; try congruence; try discriminate;
    (eapply W_parsed; [|exact H|exact E]); clear; intros p s s' q H E.
  - now apply W_setup in E.
  - now apply W_tx_ceased in E.
  - now apply W_tx_demand in E.
  - now apply W_release in E.
  - now apply W_disconnect in E.
Qed.

(** Messages that leave the state alone *)
Lemma tx_granted_same id sp g ts s s' q : send_tx_granted id sp g ts s = Ok (s', q) -> s' = s.
Proof. unfold send_tx_granted. intros H. binv H. congruence. Qed.
Lemma tx_ceased_same id g ts s s' q : send_tx_ceased id g ts s = Ok (s', q) -> s' = s.
Proof. unfold send_tx_ceased. intros H. binv H. congruence. Qed.
Lemma umac_same c s s' q : to_umac c s = Ok (s', q) -> s' = s /\ q = [ToUmac (cc_dltime s) c].
Proof. unfold to_umac. intros H. split; congruence. Qed.
Lemma brew_same c s s' q : to_brew c s = Ok (s', q) -> s' = s /\ q = [ToBrew (cc_dltime s) c].
Proof. unfold to_brew. intros H. split; congruence. Qed.
Lemma when_brew_same b c s s' q : when b (to_brew c) s = Ok (s', q) -> s' = s /\ q = if b then [ToBrew (cc_dltime s) c] else [].
Proof. unfold when. destruct b; [apply brew_same|]. unfold nothing. intros H. split; congruence. Qed.

Lemma W_start cfg hint u src dest s s' q : W [] [] s -> rx_network_call_start cfg hint u src dest s = Ok (s', q) -> W [] [] s'.
Proof.
  intros H E. unfold rx_network_call_start in E. binv E. destruct (has_listener dest s) eqn:Hl; cbn [negb] in E.
  - destruct (find _ _) as [[id c]|] eqn:Ef.
    + apply find_some_in in Ef; [|apply (w_nodup _ _ _ H)]. destruct Ef as [Ec _].
      destruct (ac_tx c).
      * apply brew_same in E. destruct E as [-> _]. exact H.
      * apply andthen_ok in E. destruct E as (s1 & q1 & q2 & E1 & E2 & _). apply tx_granted_same in E1. subst s1.
        apply andthen_ok in E2. destruct E2 as (s1 & q3 & q4 & E1 & E2 & _). apply umac_same in E1. destruct E1 as [-> _].
        apply brew_same in E2. destruct E2 as [-> _].
        match goal with |- W _ _ ?s2 => refine (W_call [] [] s s2 id c _ H Ec _ _ eq_refl eq_refl eq_refl eq_refl) end; reflexivity.
    + binv E. destruct x0 as [[r m] slots]. destruct r as [c|e].
      * binv E. binv E. injection E as <- <-.
        match goal with |- W _ _ ?s2 => refine (W_new_call [] [] s s2 (ci_call c) _ _ H _ _ eq_refl eq_refl eq_refl eq_refl) end; [assumption|reflexivity].
      * injection E as <- <-. now apply (W_same [] [] s).
  - apply andthen_ok in E. destruct E as (s1 & q1 & q2 & E1 & E2 & _). apply brew_same in E2. destruct E2 as [-> _].
    apply (W_drop cfg hint dest [] [] s s1 q1); [|assumption]. apply (W_weaken []); [easy|assumption].
Qed.

Lemma W_end cfg hint u s s' q : W [] [] s -> rx_network_call_end cfg hint u s = Ok (s', q) -> W [] [] s'.
Proof.
  intros H E. unfold rx_network_call_end in E. destruct (find _ _) as [[id c]|] eqn:Ef; [|congruence].
  apply find_some_in in Ef; [|apply (w_nodup _ _ _ H)]. destruct Ef as [Ec _]. destruct (ac_tx c).
  - apply andthen_ok in E. destruct E as (s1 & q1 & q2 & E1 & E2 & _). apply tx_ceased_same in E1. subst s1. apply umac_same in E2. destruct E2 as [-> _].
    match goal with |- W _ _ ?s2 => refine (W_call [] [] s s2 id c _ H Ec _ _ eq_refl eq_refl eq_refl eq_refl) end; reflexivity.
  - now apply W_release in E.
Qed.

Lemma W_inactivity cfg hint ts s s' q : W [] [] s -> ul_inactivity cfg hint ts s = Ok (s', q) -> W [] [] s'.
Proof.
  intros H E. unfold ul_inactivity in E. destruct (find _ _) as [[id c]|] eqn:Ef; [|congruence].
  apply find_some_in in Ef; [|apply (w_nodup _ _ _ H)]. destruct Ef as [Ec _].
  apply andthen_ok in E. destruct E as (s1 & q1 & q2 & E1 & E2 & _). apply tx_ceased_same in E1. subst s1.
  apply andthen_ok in E2. destruct E2 as (s1 & q3 & q4 & E1 & E2 & _). apply umac_same in E1. destruct E1 as [-> _].
  apply when_brew_same in E2. destruct E2 as [-> _].
  match goal with |- W _ _ ?s2 => refine (W_call [] [] s s2 id c _ H Ec _ _ eq_refl eq_refl eq_refl eq_refl) end; reflexivity.
Qed.

Lemma W_control cfg hint c s s' q : W [] [] s -> rx_call_control cfg hint c s = Ok (s', q) -> W [] [] s'.
Proof.
  intros H E. destruct c; cbn [rx_call_control] in E; try (unfold nothing in E; congruence).
  - now apply W_start in E.
  - now apply W_end in E.
  - now apply W_inactivity in E.
Qed.

Lemma W_task c s s' q : W [] [] s -> do_task c s = Ok (s', q) -> W [] [] s'.
Proof.
  intros H E. destruct c as [id u ts|id c]; cbn [do_task] in E.
  - destruct (aget id (cc_active s)) as [call|] eqn:Ec.
    + destruct (present (ac_hang call)); [congruence|]. destruct (aget id (cc_cached s)) as [[p a]|] eqn:Ep; [|congruence].
      binv E. injection E as <- <-. destruct H as [ND K F S1 S2 C L]. constructor; auto.
      intros k. cbn [cc_set_cached cc_active cc_cached]. rewrite aget_aset. destruct (N.eqb_spec k id) as [->|]; [now rewrite Ec|apply K].
    + destruct (aget id (cc_cached s)) as [[p a]|]; [|congruence]. binv E. congruence.
  - binv E. injection E as <- <-.
    apply (W_same [] [] (forget_call id s)); try reflexivity.
    apply (W_released (N.eqb id) [] [] s); [assumption|].
    apply (forget_released id s s); reflexivity.
Qed.

Lemma W_tick cfg hint t s s' q : W [] [] s -> cc_tick cfg hint t s = Ok (s', q) -> W [] [] s'.
Proof.
  intros H E. unfold cc_tick in E. apply andthen_ok in E. destruct E as (s1 & q1 & q2 & E1 & E2 & _).
  assert (H1 : W [] [] s1).
  { unfold check_hangtime in E1. binv E1. apply (each_inv0 _ (W [] []) x) in E1; [exact E1| |now apply (W_same [] [] s)].
    clear. intros id s s' q _ H E. now apply W_release in E. }
  binv E2. destruct x as [tasks m]. apply (each_inv0 _ (W [] []) tasks) in E2; [exact E2| |now apply (W_same [] [] s1)].
  clear. intros c s s' q _ H E. now apply W_task in E.
Qed.

Lemma W_step cfg e s s' q : W [] [] s -> cc_step cfg e s = Ok (s', q) -> W [] [] s'.
Proof.
  destruct e; cbn [cc_step]; [apply W_tick|apply W_uplink|apply W_control|apply W_update].
Qed.
Lemma W_reachable cfg s : reachable cfg s -> W [] [] s.
Proof. induction 1; [apply W_new|now apply (W_step cfg e s s' q)]. Qed.
