(** Mobility management: the registry and call control follow it (C34). *)
From Verif Require Import Base AMap AMapOrder AMapOrderProofs MacFields MmFields MmPdus BrewRoute Registry RegistrySpec RegistryProofs CallControl CcSpec CcProofs CcHistory CcKeeps
  Mobility MobilitySpec.
Open Scope N_scope.

(** ** Views: who is known, and attached to what *)
Definition view := N -> option (N -> bool).
Definition oeq (o o' : option (N -> bool)) : Prop :=
  match o, o' with Some a, Some b => forall g, a g = b g | None, None => True | _, _ => False end.
Definition same (v w : view) : Prop := forall i, oeq (v i) (w i).
Definition vset (i : N) (o : option (N -> bool)) (v : view) : view := fun j => if j =? i then o else v j.
Definition apply_upd (v : view) (u : sub_update) : view :=
  let i := su_issi u in
  match su_action u with
  | SubRegister => match v i with Some _ => v | None => vset i (Some (fun _ => false)) v end
  | SubDeregister => vset i None v
  | SubAffiliate => vset i (Some (fun g => memN g (su_groups u) || match v i with Some a => a g | None => false end)) v
  | SubDeaffiliate => match v i with Some a => vset i (Some (fun g => a g && negb (memN g (su_groups u)))) v | None => v end
  end.
Definition follow (v : view) (l : list sub_update) : view := fold_left apply_upd l v.
Definition lview (m : amap (list N)) : view := fun i => option_map (fun l g => memN g l) (aget i m).
Definition mmv (s : mob) : view := fun i => option_map (fun c g => memN g (cl_groups c)) (aget i (mo_clients s)).
Definition regv (s : mob) : view := lview (rg_subs (mo_reg s)).
Definition ccv (c : cc) : view := lview (cc_subs c).

Lemma same_refl v : same v v.
Proof. intros i. unfold oeq. destruct (v i); auto. Qed.
Lemma same_sym v w : same v w -> same w v.
Proof. intros H i. specialize (H i). unfold oeq in *. destruct (v i), (w i); auto. Qed.
Lemma same_trans u v w : same u v -> same v w -> same u w.
Proof. intros H H' i. specialize (H i). specialize (H' i). unfold oeq in *. destruct (u i), (v i), (w i); try tauto. intros g. now rewrite H. Qed.
Lemma same_at v w i : same v w -> oeq (v i) (w i).
Proof. intros H. apply H. Qed.
Lemma same_set i o o' v w : same v w -> oeq o o' ->
  same (vset i o v) (vset i o' w).
Proof. intros H Ho j. unfold vset. destruct (j =? i); [exact Ho|apply H]. Qed.
Lemma apply_same u v w : same v w -> same (apply_upd v u) (apply_upd w u).
Proof.
  intros H. pose proof (same_at _ _ (su_issi u) H) as Hi. unfold oeq in Hi. unfold apply_upd. destruct (su_action u).
  - destruct (v (su_issi u)), (w (su_issi u)); try tauto. apply same_set; [exact H|intros g; reflexivity].
  - now apply same_set.
  - apply same_set; [exact H|]. intros g. destruct (v (su_issi u)), (w (su_issi u)); try tauto. now rewrite Hi.
  - destruct (v (su_issi u)), (w (su_issi u)); try tauto. apply same_set; [exact H|]. intros g. now rewrite Hi.
Qed.
Lemma follow_same l : forall v w, same v w -> same (follow v l) (follow w l).
Proof. induction l as [|u t IH]; intros v w H; [exact H|]. cbn [follow fold_left]. apply IH. now apply apply_same. Qed.
Lemma follow_app v l l' : follow v (l ++ l') = follow (follow v l) l'.
Proof. apply fold_left_app. Qed.

Lemma set_mem g l : set_has g l = memN g l.
Proof. reflexivity. Qed.

(** ** Call control *)
Lemma insert_mem groups : forall l l' new x, insert_groups groups l = (l', new) -> memN x l' = memN x groups || memN x l.
Proof.
  induction groups as [|g t IH]; intros l l' new x H; cbn [insert_groups] in H; [injection H as <- <-; reflexivity|].
  change (memN x (g :: t)) with ((x =? g) || memN x t). destruct (memN g l) eqn:M.
  - rewrite (IH l l' new x H). destruct (N.eqb_spec x g) as [->|]; [|reflexivity]. rewrite M, orb_true_r. reflexivity.
  - destruct (insert_groups t (g :: l)) as [l1 n1] eqn:E. injection H as <- <-. rewrite (IH (g :: l) l1 n1 x E).
    change (memN x (g :: l)) with ((x =? g) || memN x l). destruct (x =? g), (memN x t); reflexivity.
Qed.
Lemma remove_mem groups : forall l l' gone x, remove_groups groups l = (l', gone) -> memN x l' = memN x l && negb (memN x groups).
Proof.
  induction groups as [|g t IH]; intros l l' gone x H; cbn [remove_groups] in H; [injection H as <- <-; now rewrite andb_true_r|].
  change (memN x (g :: t)) with ((x =? g) || memN x t). destruct (memN g l) eqn:M.
  - destruct (remove_groups t _) as [l1 n1] eqn:E. injection H as <- <-. rewrite (IH _ l1 n1 x E), memN_filter, (N.eqb_sym g x).
    destruct (x =? g), (memN x t), (memN x l); reflexivity.
  - rewrite (IH l l' gone x H). destruct (N.eqb_spec x g) as [->|]; [|reflexivity]. now rewrite M.
Qed.

Lemma drops_subs cfg hint (g0 : N -> amap N -> amap N) l : forall s s' q, keys s -> NoDup (akeys (cc_active s)) ->
  each (fun g => fun s => drop_unlistened cfg hint g (cc_set_listeners (g0 g (cc_listeners s)) s)) l s = Ok (s', q) -> cc_subs s' = cc_subs s.
Proof.
  induction l as [|g t IH]; intros s s' q K ND E; cbn [each] in E; [injection E as <- <-; reflexivity|].
  apply andthen_ok in E. destruct E as (s1 & q1 & q2 & E1 & E2 & ->). set (sa := cc_set_listeners (g0 g (cc_listeners s)) s) in *.
  pose proof (drop_released cfg hint g sa s1 q1 K ND E1) as R.
  rewrite (IH s1 s' q2 (released_keys _ sa s1 K R) (rl_nodup _ _ _ R ND) E2). apply (rl_subs _ _ _ R).
Qed.
Lemma drops_subs0 cfg hint l s s' q : keys s -> NoDup (akeys (cc_active s)) -> each (drop_unlistened cfg hint) l s = Ok (s', q) -> cc_subs s' = cc_subs s.
Proof.
  intros K ND E. apply (drops_subs cfg hint (fun _ m => m) l s s' q K ND). rewrite <- E. clear. revert s.
  induction l as [|g t IH]; intros s; [reflexivity|]. cbn [each]. unfold andthen.
  replace (cc_set_listeners (cc_listeners s) s) with s by (now destruct s).
  destruct (drop_unlistened cfg hint g s) as [[s1 q1]| |]; cbn [bind]; try reflexivity. now rewrite IH.
Qed.

Lemma lview_set i l m : same (lview (aset i l m)) (vset i (Some (fun g => memN g l)) (lview m)).
Proof. intros j. unfold lview, vset. rewrite aget_aset. destruct (j =? i); cbn [option_map]; [intros g; reflexivity|]. unfold oeq. destruct (aget j m); cbn; auto. Qed.
Lemma lview_del i m : same (lview (adel i m)) (vset i None (lview m)).
Proof. intros j. unfold lview, vset. rewrite aget_adel. destruct (j =? i); cbn [option_map]; [exact Logic.I|]. unfold oeq. destruct (aget j m); cbn; auto. Qed.

Lemma update_view cfg hg hint issi groups action s s' q : keys s -> NoDup (akeys (cc_active s)) ->
  subscriber_update cfg hg hint issi groups action s = Ok (s', q) -> same (ccv s') (apply_upd (ccv s) (mk_update issi groups action)).
Proof.
  intros K ND E. unfold apply_upd. cbn [su_issi su_groups su_action]. 
  change (ccv s issi) with (option_map (fun l g => memN g l) (aget issi (cc_subs s))). destruct action; cbn [subscriber_update] in E.
  - destruct (aget issi (cc_subs s)) eqn:Ei; cbn [option_map]; injection E as <- <-; [apply same_refl|].
    unfold ccv. cbn [cc_set_subs cc_subs]. apply lview_set.
  - assert (ES : same (ccv s') (vset issi None (ccv s))); [|exact ES].
    destruct (aget issi (cc_subs s)) as [ex|] eqn:Ei.
    + apply (drops_subs cfg hint (fun g m => dec_listener m g)) in E; [|exact K|exact ND]. unfold ccv. rewrite E. cbn [cc_set_subs cc_subs]. apply lview_del.
    + injection E as <- <-. intros j. unfold vset. destruct (N.eqb_spec j issi) as [->|]; [unfold ccv, lview; rewrite Ei; exact Logic.I|]. unfold oeq; destruct (ccv s j); auto.
  - set (entry := match aget issi (cc_subs s) with Some l => l | None => [] end) in *. destruct (insert_groups groups entry) as [l' new] eqn:Eg. injection E as <- <-.
    unfold ccv. cbn [cc_set_listeners cc_set_subs cc_subs]. eapply same_trans; [apply lview_set|]. apply same_set; [apply same_refl|].
    intros g. rewrite (insert_mem _ _ _ _ g Eg). f_equal. unfold entry. destruct (aget issi (cc_subs s)); reflexivity.
  - destruct (aget issi (cc_subs s)) as [entry|] eqn:Ei; cbn [option_map].
    + destruct (remove_groups groups entry) as [l' gone] eqn:Eg. apply drops_subs0 in E; [|exact K|exact ND]. unfold ccv. rewrite E.
      cbn [cc_set_listeners cc_set_subs cc_subs]. eapply same_trans; [apply lview_set|]. apply same_set; [apply same_refl|].
      intros g. apply (remove_mem _ _ _ _ g Eg).
    + apply drops_subs0 in E; [|exact K|exact ND]. unfold ccv. rewrite E. apply same_refl.
Qed.

(** ** The registry *)
Lemma reg_register_view i r : same (lview (rg_subs (reg_register i r))) (vset i (Some (fun _ => false)) (lview (rg_subs r))).
Proof.
  unfold reg_register. cbn [rg_subs]. eapply same_trans; [apply lview_set|]. unfold reg_deregister.
  destruct (aget i (rg_subs r)) eqn:E; cbn [rg_subs]; [|apply same_refl].
  intros j. unfold vset, lview. destruct (N.eqb_spec j i) as [->|J]; [intros g; reflexivity|]. rewrite aget_adel. apply N.eqb_neq in J. rewrite J.
  apply (same_refl (lview (rg_subs r))).
Qed.
Lemma reg_deregister_view i r : same (lview (rg_subs (reg_deregister i r))) (vset i None (lview (rg_subs r))).
Proof.
  unfold reg_deregister. destruct (aget i (rg_subs r)) eqn:E; cbn [rg_subs]; [apply lview_del|].
  intros j. unfold vset. destruct (N.eqb_spec j i) as [->|J]; [unfold lview; rewrite E; exact Logic.I|]. apply same_refl.
Qed.
Lemma reg_affiliate_view i x r : same (lview (rg_subs (reg_affiliate i x r)))
  (vset i (Some (fun g => (x =? g) || match lview (rg_subs r) i with Some a => a g | None => false end)) (lview (rg_subs r))).
Proof.
  unfold reg_affiliate. cbn [rg_subs]. eapply same_trans; [apply lview_set|]. apply same_set; [apply same_refl|]. intros g.
  rewrite <- (set_mem g), has_add. f_equal. unfold reg_get, lview. now destruct (aget i (rg_subs r)).
Qed.
Lemma reg_deaffiliate_view i x r : same (lview (rg_subs (reg_deaffiliate i x r)))
  (vset i (Some (fun g => negb (x =? g) && match lview (rg_subs r) i with Some a => a g | None => false end)) (lview (rg_subs r))).
Proof.
  unfold reg_deaffiliate. cbn [rg_subs]. eapply same_trans; [apply lview_set|]. apply same_set; [apply same_refl|]. intros g.
  rewrite <- (set_mem g), has_del. f_equal. unfold reg_get, lview. now destruct (aget i (rg_subs r)).
Qed.

Definition sync (s : mob) : Prop := (exists h, reg_inv h (mo_reg s)) /\ same (regv s) (mmv s).
Lemma sync_step o cl s : sync s -> same (lview (rg_subs (reg_step (mo_reg s) o))) (mmv (mk_mob cl (mo_reg s))) -> sync (mk_mob cl (reg_step (mo_reg s) o)).
Proof. intros [(h & I) _] V. split; [exists (o :: h); now apply step_inv|exact V]. Qed.

Lemma mmv_set i c cl r : same (mmv (mk_mob (aset i c cl) r)) (vset i (Some (fun g => memN g (cl_groups c))) (mmv (mk_mob cl r))).
Proof. intros j. unfold mmv, vset. cbn [mo_clients]. rewrite aget_aset. destruct (j =? i); [intros g; reflexivity|]. apply (same_refl (mmv (mk_mob cl r))). Qed.
Lemma mmv_del i cl r : same (mmv (mk_mob (adel i cl) r)) (vset i None (mmv (mk_mob cl r))).
Proof. intros j. unfold mmv, vset. cbn [mo_clients]. rewrite aget_adel. destruct (j =? i); [exact Logic.I|]. apply (same_refl (mmv (mk_mob cl r))). Qed.
Lemma mmv_at s i c : aget i (mo_clients s) = Some c -> mmv s i = Some (fun g => memN g (cl_groups c)).
Proof. intros E. unfold mmv. now rewrite E. Qed.
Lemma vset_vset i o o' v : same (vset i o (vset i o' v)) (vset i o v).
Proof. intros j. unfold vset. destruct (N.eqb_spec j i) as [->|J]; [unfold oeq; destruct o; auto|]. unfold oeq. destruct (v j); auto. Qed.
Lemma vset_id i o v : oeq o (v i) -> same (vset i o v) v.
Proof. intros H j. unfold vset. destruct (N.eqb_spec j i) as [->|J]; [exact H|apply same_refl]. Qed.
Lemma old_same s i c g : sync s -> aget i (mo_clients s) = Some c -> match regv s i with Some a => a g | None => false end = memN g (cl_groups c).
Proof. intros [_ V] E. specialize (V i). rewrite (mmv_at s i c E) in V. unfold oeq in V. destruct (regv s i); [apply V|tauto]. Qed.

(** ** The loop over the groups of a request *)
Definition changed_by (att has : bool) : bool := if att then negb has else has.
Definition group_set (att : bool) (g : N) (l : list N) : list N := if att then set_add g l else set_del g l.
Definition loop_step (issi g : N) (att : bool) (c : mm_client) (s : mob) : mob :=
  mk_mob (aset issi (mk_client (cl_state c) (group_set att g (cl_groups c))) (mo_clients s))
         (if changed_by att (set_has g (cl_groups c)) then (if att then reg_affiliate issi g (mo_reg s) else reg_deaffiliate issi g (mo_reg s)) else mo_reg s).
Definition attaches (u : giu) : bool := match giu_detachment u with Some _ => false | None => true end.

Lemma loop_cons issi u t s c : aget issi (mo_clients s) = Some c -> attach_loop issi (u :: t) s =
  match plain u with
  | None => attach_loop issi t s
  | Some g =>
      let ch := changed_by (attaches u) (set_has g (cl_groups c)) in
      let '(s1, acc, aff, deaff) := attach_loop issi t (loop_step issi g (attaches u) c s) in
      (s1, answer_to u ++ acc, if attaches u then (if ch then g :: aff else aff) else aff,
       if attaches u then deaff else if ch then g :: deaff else deaff)
  end.
Proof.
  intros E. cbn [attach_loop]. unfold answer_to, plain, attaches, loop_step, changed_by, group_set.
  destruct (giu_gssi u) as [g|]; [|reflexivity].
  destruct (giu_vgssi u), (giu_address_extension u); try reflexivity.
  unfold client_group_attach. destruct (giu_detachment u) as [d|]; rewrite E;
    destruct (set_has g (cl_groups c)) eqn:M; cbn [negb];
    unfold mo_set_reg, mo_set_clients; cbn [mo_reg mo_clients];
    match goal with |- context[attach_loop issi t ?x] => destruct (attach_loop issi t x) as [[[s1 acc] aff] deaff] end; reflexivity.
Qed.
Lemma loop_unknown issi l s : aget issi (mo_clients s) = None -> attach_loop issi l s = (s, [], [], []).
Proof.
  intros E. induction l as [|u t IH]; [reflexivity|]. cbn [attach_loop]. unfold client_group_attach. rewrite E, IH.
  destruct (giu_gssi u), (giu_vgssi u), (giu_address_extension u), (giu_detachment u); reflexivity.
Qed.
Lemma loop_step_get issi g att c s : aget issi (mo_clients (loop_step issi g att c s)) = Some (mk_client (cl_state c) (group_set att g (cl_groups c))).
Proof. unfold loop_step. cbn [mo_clients]. now rewrite aget_aset, N.eqb_refl. Qed.
Lemma loop_step_other issi g att c s j : j <> issi -> aget j (mo_clients (loop_step issi g att c s)) = aget j (mo_clients s).
Proof. intros H. unfold loop_step. cbn [mo_clients]. rewrite aget_aset. apply N.eqb_neq in H. now rewrite H. Qed.
Lemma group_set_has att g x l : memN x (group_set att g l) = if x =? g then att else memN x l.
Proof.
  rewrite <- !set_mem. unfold group_set. destruct att; [rewrite has_add|rewrite has_del]; rewrite (N.eqb_sym x g); destruct (g =? x); reflexivity.
Qed.

Lemma loop_known issi l : forall s c s' acc aff deaff, aget issi (mo_clients s) = Some c -> attach_loop issi l s = (s', acc, aff, deaff) ->
  exists groups, aget issi (mo_clients s') = Some (mk_client (cl_state c) groups) /\
    (forall j, j <> issi -> aget j (mo_clients s') = aget j (mo_clients s)) /\ acc = answers_to l /\
    (forall g, memN g groups = match asked l g with Some b => b | None => memN g (cl_groups c) end).
Proof.
  induction l as [|u t IH]; intros s c s' acc aff deaff E H.
  - cbn [attach_loop] in H. injection H as <- <- <- <-. exists (cl_groups c).
    split; [rewrite E; now destruct c|]. split; [reflexivity|]. split; reflexivity.
  - rewrite (loop_cons issi u t s c E) in H. cbn [asked answers_to flat_map]. fold (answers_to t).
    destruct (plain u) as [g|] eqn:P.
    + cbn zeta in H. destruct (attach_loop issi t _) as [[[s1 acc1] aff1] deaff1] eqn:E1.
      destruct (IH _ _ _ _ _ _ (loop_step_get issi g (attaches u) c s) E1) as (gs & G1 & G2 & G3 & G4). injection H as <- <- _ _.
      exists gs. split; [exact G1|]. split; [|split; [now rewrite G3|]].
      * intros j J. rewrite (G2 j J). now apply loop_step_other.
      * intros x. rewrite G4. destruct (asked t x); [reflexivity|]. cbn [cl_groups]. rewrite group_set_has, (N.eqb_sym g x).
        destruct (x =? g); [unfold attaches; now destruct (giu_detachment u)|reflexivity].
    + destruct (IH _ _ _ _ _ _ E H) as (gs & G1 & G2 & G3 & G4). exists gs. unfold answer_to at 1. rewrite P. cbn [app].
      split; [exact G1|]. split; [exact G2|]. split; [exact G3|]. intros x. rewrite G4. now destruct (asked t x).
Qed.

Lemma loop_step_sync issi g att c s : aget issi (mo_clients s) = Some c -> sync s -> sync (loop_step issi g att c s).
Proof.
  intros E Y. unfold loop_step. set (cl := aset issi _ (mo_clients s)).
  assert (V : same (mmv (mk_mob cl (mo_reg s))) (vset issi (Some (fun x => if x =? g then att else memN x (cl_groups c))) (mmv s))).
  { unfold cl. eapply same_trans; [apply mmv_set|]. apply same_set; [apply (same_refl (mmv s))|]. intros x. cbn [cl_groups]. apply group_set_has. }
  pose proof (old_same s issi c) as OS. destruct (changed_by att (set_has g (cl_groups c))) eqn:CH.
  - destruct att.
    + apply (sync_step (Affiliate issi g)); [exact Y|]. cbn [reg_step]. eapply same_trans; [apply reg_affiliate_view|]. apply same_sym.
      eapply same_trans; [exact V|]. apply same_set; [apply same_sym, Y|]. intros x. change (lview (rg_subs (mo_reg s))) with (regv s).
      rewrite (OS x Y E), (N.eqb_sym x g). now destruct (g =? x).
    + apply (sync_step (Deaffiliate issi g)); [exact Y|]. cbn [reg_step]. eapply same_trans; [apply reg_deaffiliate_view|]. apply same_sym.
      eapply same_trans; [exact V|]. apply same_set; [apply same_sym, Y|]. intros x. change (lview (rg_subs (mo_reg s))) with (regv s).
      rewrite (OS x Y E), (N.eqb_sym x g). now destruct (g =? x).
  - split; [exact (proj1 Y)|]. change (regv (mk_mob cl (mo_reg s))) with (regv s). eapply same_trans; [exact (proj2 Y)|]. apply same_sym.
    eapply same_trans; [exact V|]. apply vset_id. rewrite (mmv_at s issi c E). intros x. destruct (N.eqb_spec x g) as [->|]; [|reflexivity].
    rewrite set_mem in CH. unfold changed_by in CH. destruct att, (memN g (cl_groups c)); easy.
Qed.
Lemma loop_sync issi l : forall s s' acc aff deaff, sync s -> attach_loop issi l s = (s', acc, aff, deaff) -> sync s'.
Proof.
  induction l as [|u t IH]; intros s s' acc aff deaff Y H; [cbn [attach_loop] in H; injection H as <- _ _ _; exact Y|].
  destruct (aget issi (mo_clients s)) as [c|] eqn:E.
  - rewrite (loop_cons issi u t s c E) in H. destruct (plain u) as [g|]; [|exact (IH _ _ _ _ _ Y H)].
    cbn zeta in H. destruct (attach_loop issi t _) as [[[s1 acc1] aff1] deaff1] eqn:E1. injection H as <- _ _ _.
    exact (IH _ _ _ _ _ (loop_step_sync issi g (attaches u) c s E Y) E1).
  - rewrite (loop_unknown _ _ _ E) in H. injection H as <- _ _ _. exact Y.
Qed.

Lemma plain_gssi u g : plain u = Some g -> giu_gssi u = Some g.
Proof. unfold plain. destruct (giu_gssi u), (giu_address_extension u), (giu_vgssi u); easy. Qed.
Lemma aff_later issi l : forall s c s' acc aff deaff g, aget issi (mo_clients s) = Some c -> attach_loop issi l s = (s', acc, aff, deaff) -> memN g aff = true ->
  exists k u, nth_error l k = Some u /\ giu_gssi u = Some g /\ giu_detachment u = None.
Proof.
  induction l as [|u t IH]; intros s c s' acc aff deaff g E H M.
  - cbn [attach_loop] in H. injection H as _ _ <- _. discriminate M.
  - assert (L : (exists k v, nth_error t k = Some v /\ giu_gssi v = Some g /\ giu_detachment v = None) ->
                exists k v, nth_error (u :: t) k = Some v /\ giu_gssi v = Some g /\ giu_detachment v = None).
    { intros (k & v & Q). now exists (S k), v. }
    rewrite (loop_cons issi u t s c E) in H. destruct (plain u) as [g0|] eqn:P; [|exact (L (IH _ _ _ _ _ _ _ E H M))].
    cbn zeta in H. destruct (attach_loop issi t _) as [[[s1 acc1] aff1] deaff1] eqn:E1. injection H as _ _ HA _.
    destruct (memN g aff1) eqn:M1; [exact (L (IH _ _ _ _ _ _ _ (loop_step_get issi g0 (attaches u) c s) E1 M1))|].
    rewrite <- HA in M. unfold attaches in *. destruct (giu_detachment u) eqn:D; [congruence|].
    destruct (changed_by true (set_has g0 (cl_groups c))); [|congruence].
    change (memN g (g0 :: aff1)) with ((g =? g0) || memN g aff1) in M. rewrite M1, orb_false_r in M. apply N.eqb_eq in M. subst g0.
    exists 0%nat, u. split; [reflexivity|]. split; [now apply plain_gssi|exact D].
Qed.
Lemma orderly_tail u t : orderly (u :: t) -> orderly t.
Proof. intros H j k a b g L J K. exact (H (S j) (S k) a b g ltac:(lia) J K). Qed.
Lemma loop_effect issi l : forall s c s' acc aff deaff c' g, orderly l -> aget issi (mo_clients s) = Some c -> attach_loop issi l s = (s', acc, aff, deaff) ->
  aget issi (mo_clients s') = Some c' -> memN g (cl_groups c') = (memN g aff || memN g (cl_groups c)) && negb (memN g deaff).
Proof.
  induction l as [|u t IH]; intros s c s' acc aff deaff c' g O E H E'.
  - cbn [attach_loop] in H. injection H as <- _ <- <-. rewrite E in E'. injection E' as <-. cbn [memN existsb orb negb]. now rewrite andb_true_r.
  - pose proof H as H0. rewrite (loop_cons issi u t s c E) in H. destruct (plain u) as [g0|] eqn:P; [|exact (IH _ _ _ _ _ _ _ g (orderly_tail _ _ O) E H E')].
    cbn zeta in H. destruct (attach_loop issi t _) as [[[s1 acc1] aff1] deaff1] eqn:E1. injection H as <- _ HA HD.
    pose proof (IH _ _ _ _ _ _ _ g (orderly_tail _ _ O) (loop_step_get issi g0 (attaches u) c s) E1 E') as Q. cbn [cl_groups] in Q. rewrite Q, group_set_has.
    rewrite set_mem in HA, HD. unfold attaches in *. destruct (giu_detachment u) as [d|] eqn:D.
    + subst aff1. unfold changed_by in HD. destruct (N.eqb_spec g g0) as [->|J].
      * assert (A0 : memN g0 aff = false).
        { apply not_true_is_false. intros A. destruct (aff_later _ _ _ _ _ _ _ _ g0 (loop_step_get issi g0 false c s) E1 A) as (k & v & K1 & K2 & K3).
          apply (O 0%nat (S k) u v g0 ltac:(lia) eq_refl K1 (plain_gssi u g0 P) K2); [congruence|exact K3]. }
        rewrite A0. cbn [orb andb]. destruct (memN g0 (cl_groups c)); [|reflexivity]. subst deaff.
        change (memN g0 (g0 :: deaff1)) with ((g0 =? g0) || memN g0 deaff1). now rewrite N.eqb_refl.
      * destruct (memN g0 (cl_groups c)); subst deaff; [|reflexivity].
        change (memN g (g0 :: deaff1)) with ((g =? g0) || memN g deaff1). apply N.eqb_neq in J. now rewrite J.
    + subst deaff1. unfold changed_by in HA. destruct (memN g0 (cl_groups c)) eqn:M; cbn [negb] in HA; subst aff.
      * destruct (N.eqb_spec g g0) as [->|]; [now rewrite M|reflexivity].
      * change (memN g (g0 :: aff1)) with ((g =? g0) || memN g aff1). destruct (g =? g0); [now rewrite !orb_true_r|reflexivity].
Qed.

(** ** The messages *)
Lemma to_cmce_app q q' : to_cmce (q ++ q') = to_cmce q ++ to_cmce q'.
Proof. apply flat_map_app. Qed.
Lemma to_network_app q q' : to_network (q ++ q') = to_network q ++ to_network q'.
Proof. apply flat_map_app. Qed.
Lemma sent_app q q' : sent (q ++ q') = sent q ++ sent q'.
Proof. apply flat_map_app. Qed.
Lemma emit_cmce cfg t i gs a : to_cmce (emit_update cfg t i gs a) = [mk_update i gs a].
Proof. unfold emit_update. rewrite to_cmce_app. destruct (brew_is_active cfg); [|reflexivity]. cbn zeta. destruct (match a with SubRegister | SubDeregister => _ | _ => _ end); reflexivity. Qed.
Lemma emit_sent cfg t i gs a : sent (emit_update cfg t i gs a) = [].
Proof. unfold emit_update. rewrite sent_app. destruct (brew_is_active cfg); [|reflexivity]. cbn zeta. destruct (match a with SubRegister | SubDeregister => _ | _ => _ end); reflexivity. Qed.
Lemma emit_nonempty_cmce cfg t i gs a : to_cmce (emit_nonempty cfg t i gs a) = match gs with [] => [] | _ => [mk_update i gs a] end.
Proof. unfold emit_nonempty. destruct gs; [reflexivity|]. apply emit_cmce. Qed.
Lemma emit_nonempty_sent cfg t i gs a : sent (emit_nonempty cfg t i gs a) = [].
Proof. unfold emit_nonempty. destruct gs; [reflexivity|]. apply emit_sent. Qed.

Lemma aff_follow cfg t i gs v a : v i = Some a -> same (follow v (to_cmce (emit_nonempty cfg t i gs SubAffiliate))) (vset i (Some (fun g => memN g gs || a g)) v).
Proof.
  intros E. rewrite emit_nonempty_cmce. destruct gs as [|g0 gs].
  - cbn [follow fold_left]. apply same_sym, vset_id. rewrite E. intros g. reflexivity.
  - cbn [follow fold_left apply_upd su_action su_issi su_groups]. rewrite E. apply same_refl.
Qed.
Lemma deaff_follow cfg t i gs v a : v i = Some a -> same (follow v (to_cmce (emit_nonempty cfg t i gs SubDeaffiliate))) (vset i (Some (fun g => a g && negb (memN g gs))) v).
Proof.
  intros E. rewrite emit_nonempty_cmce. destruct gs as [|g0 gs].
  - cbn [follow fold_left]. apply same_sym, vset_id. rewrite E. intros g. cbn [memN existsb negb]. now rewrite andb_true_r.
  - cbn [follow fold_left apply_upd su_action su_issi su_groups]. rewrite E. apply same_refl.
Qed.

(** ** Each request *)
Lemma mmv_ext s s' i c' : aget i (mo_clients s') = Some c' -> (forall j, j <> i -> aget j (mo_clients s') = aget j (mo_clients s)) ->
  same (mmv s') (vset i (Some (fun g => memN g (cl_groups c'))) (mmv s)).
Proof.
  intros E O j. unfold vset. destruct (N.eqb_spec j i) as [->|J]; [rewrite (mmv_at _ _ _ E); intros g; reflexivity|].
  unfold mmv. rewrite (O j J). apply (same_refl (mmv s)).
Qed.

Lemma attach_groups_follow cfg t issi l s s' acc q : attach_groups cfg t issi l s = (s', acc, q) -> orderly l -> same (follow (mmv s) (to_cmce q)) (mmv s').
Proof.
  intros H O. unfold attach_groups in H. destruct (attach_loop issi l s) as [[[s1 acc1] aff] deaff] eqn:E. injection H as <- <- <-.
  destruct (aget issi (mo_clients s)) as [c|] eqn:C.
  - destruct (loop_known _ _ _ _ _ _ _ _ C E) as (gs & G1 & G2 & _ & _).
    rewrite to_cmce_app, follow_app.
    eapply same_trans; [apply follow_same, (aff_follow cfg t issi aff _ _ (mmv_at s issi c C))|].
    eapply same_trans; [apply deaff_follow; unfold vset; rewrite N.eqb_refl; reflexivity|].
    eapply same_trans; [apply vset_vset|]. apply same_sym. eapply same_trans; [exact (mmv_ext s s1 issi _ G1 G2)|].
    apply same_set; [apply same_refl|]. intros g. exact (loop_effect issi l s c s1 acc1 aff deaff _ g O C E G1).
  - rewrite (loop_unknown _ _ _ C) in E. injection E as <- <- <- <-. apply same_refl.
Qed.
Lemma attach_groups_sync cfg t issi l s s' acc q : attach_groups cfg t issi l s = (s', acc, q) -> sync s -> sync s'.
Proof.
  intros H Y. unfold attach_groups in H. destruct (attach_loop issi l s) as [[[s1 acc1] aff] deaff] eqn:E. injection H as <- <- <-.
  exact (loop_sync _ _ _ _ _ _ _ Y E).
Qed.

Lemma register_follow cfg t issi s s' q : register_radio cfg t issi s = (s', q) -> aget issi (mo_clients s) = None -> same (follow (mmv s) (to_cmce q)) (mmv s').
Proof.
  unfold register_radio. intros [= <- <-] E. rewrite emit_cmce. cbn [follow fold_left apply_upd su_action su_issi]. unfold mmv at 1. rewrite E. cbn [option_map].
  apply same_sym. unfold register_client. cbn [mo_set_clients mo_set_reg mo_reg mo_clients]. eapply same_trans; [apply mmv_set|].
  eapply same_trans; [apply same_set; [apply mmv_del|apply (same_refl (fun _ => Some (fun g => memN g (cl_groups (mk_client ClAttached [])))) 0)]|].
  eapply same_trans; [apply vset_vset|]. apply same_set; [apply (same_refl (mmv s))|intros g; reflexivity].
Qed.
Lemma register_sync cfg t issi s s' q : register_radio cfg t issi s = (s', q) -> sync s -> sync s'.
Proof.
  unfold register_radio. intros [= <- <-] Y. unfold register_client. cbn [mo_set_clients mo_set_reg mo_reg mo_clients].
  apply (sync_step (Register issi)); [exact Y|]. cbn [reg_step]. eapply same_trans; [apply reg_register_view|]. apply same_sym.
  eapply same_trans; [apply mmv_set|].
  eapply same_trans; [apply same_set; [apply mmv_del|apply (same_refl (fun _ => Some (fun g => memN g (cl_groups (mk_client ClAttached [])))) 0)]|].
  eapply same_trans; [apply vset_vset|]. apply same_set; [apply same_sym, Y|intros g; reflexivity].
Qed.

Lemma detach_mem hint l g : memN g (arrange_set hint l) = memN g l.
Proof.
  destruct (memN g l) eqn:E; [apply memN_true in E; apply memN_true, arrange_set_in; exact E|].
  apply not_true_is_false. intros H. apply memN_true in H. apply arrange_set_in in H. apply memN_true in H. congruence.
Qed.
Lemma deaffs_inv issi l : forall r, (exists h, reg_inv h r) -> exists h, reg_inv h (fold_left (fun r g => reg_deaffiliate issi g r) l r).
Proof. induction l as [|g t IH]; intros r (h & I); [now exists h|]. cbn [fold_left]. apply IH. exists (Deaffiliate issi g :: h). now apply (step_inv h r (Deaffiliate issi g)). Qed.
Lemma deaffs_view issi l : forall r a, lview (rg_subs r) issi = Some a ->
  same (lview (rg_subs (fold_left (fun r g => reg_deaffiliate issi g r) l r))) (vset issi (Some (fun g => a g && negb (memN g l))) (lview (rg_subs r))).
Proof.
  induction l as [|g t IH]; intros r a E; cbn [fold_left].
  - apply same_sym, vset_id. rewrite E. intros g. cbn [memN existsb negb]. now rewrite andb_true_r.
  - pose proof (reg_deaffiliate_view issi g r) as V. rewrite E in V.
    pose proof (V issi) as Vi. unfold vset at 1 in Vi. rewrite N.eqb_refl in Vi. destruct (lview (rg_subs (reg_deaffiliate issi g r)) issi) as [a'|] eqn:E'; [|destruct Vi].
    eapply same_trans; [exact (IH _ a' E')|]. eapply same_trans; [apply same_set; [exact V|apply (same_refl (fun _ => Some _) 0)]|].
    eapply same_trans; [apply vset_vset|]. apply same_set; [apply same_refl|]. intros x. cbn in Vi. rewrite (Vi x).
    change (memN x (g :: t)) with ((x =? g) || memN x t). rewrite (N.eqb_sym x g). destruct (g =? x), (a x); reflexivity.
Qed.
Lemma drop_follow cfg hint t issi s s' q : drop_groups cfg hint t issi s = Some (s', q) -> same (follow (mmv s) (to_cmce q)) (mmv s').
Proof.
  unfold drop_groups, client_detach_all. destruct (aget issi (mo_clients s)) as [c|] eqn:E; [|discriminate]. intros [= <- <-].
  eapply same_trans; [apply (deaff_follow cfg t issi _ _ _ (mmv_at s issi c E))|]. apply same_sym.
  unfold mo_set_reg, mo_set_clients. cbn [mo_clients mo_reg].
  eapply same_trans; [apply mmv_set|]. apply same_set; [apply (same_refl (mmv s))|]. intros g. cbn [cl_groups]. rewrite detach_mem. now destruct (memN g (cl_groups c)).
Qed.
Lemma drop_sync cfg hint t issi s s' q : drop_groups cfg hint t issi s = Some (s', q) -> sync s -> sync s'.
Proof.
  unfold drop_groups, client_detach_all. destruct (aget issi (mo_clients s)) as [c|] eqn:E; [|discriminate]. intros [= <- <-] [I V].
  unfold mo_set_reg, mo_set_clients. cbn [mo_clients mo_reg]. split; [cbn [mo_reg]; now apply deaffs_inv|].
  pose proof (V issi) as Vi. rewrite (mmv_at s issi c E) in Vi. destruct (regv s issi) as [a|] eqn:Ea; [|destruct Vi].
  unfold regv. cbn [mo_reg]. eapply same_trans; [apply (deaffs_view issi _ _ a Ea)|]. apply same_sym.
  eapply same_trans; [apply mmv_set|]. apply same_set; [apply same_sym, V|]. intros g. cbn [cl_groups]. rewrite detach_mem, (Vi g). now destruct (memN g (cl_groups c)).
Qed.

Lemma detach_follow cfg hint i s s' q : rx_u_itsi_detach cfg hint i s = (s', q) -> same (follow (mmv s) (to_cmce q)) (mmv s').
Proof.
  unfold rx_u_itsi_detach. destruct (aget _ (mo_clients s)) as [c|] eqn:E; intros [= <- <-]; [|apply same_refl].
  rewrite to_cmce_app, follow_app, emit_cmce. eapply same_trans; [apply follow_same, (deaff_follow cfg _ _ _ _ _ (mmv_at s _ c E))|].
  cbn [follow fold_left apply_upd su_action su_issi]. eapply same_trans; [apply vset_vset|]. apply same_sym, mmv_del.
Qed.
Lemma detach_sync cfg hint i s s' q : rx_u_itsi_detach cfg hint i s = (s', q) -> sync s -> sync s'.
Proof.
  unfold rx_u_itsi_detach. destruct (aget _ (mo_clients s)) as [c|] eqn:E; intros [= <- <-] Y; [|exact Y].
  apply (sync_step (Deregister _)); [exact Y|]. cbn [reg_step]. eapply same_trans; [apply reg_deregister_view|]. apply same_sym.
  eapply same_trans; [apply mmv_del|]. apply same_set; [apply same_sym, Y|exact Logic.I].
Qed.

Lemma set_state_view issi st s s' : set_client_state issi st s = Some s' -> same (mmv s') (mmv s) /\ mo_reg s' = mo_reg s.
Proof.
  unfold set_client_state. destruct (aget issi (mo_clients s)) as [c|] eqn:E; [|discriminate]. intros [= <-]. split; [|reflexivity].
  unfold mo_set_clients. eapply same_trans; [apply mmv_set|]. apply vset_id. change (mmv (mk_mob (mo_clients s) (mo_reg s))) with (mmv s).
  rewrite (mmv_at s issi c E). intros g. reflexivity.
Qed.

(** What a handled message does: the registry stays in step; the updates describe the change. *)
Definition tracks (s s' : mob) (q : list mm_msg) (o : Prop) : Prop :=
  (sync s -> sync s') /\ (o -> same (follow (mmv s) (to_cmce q)) (mmv s')).
Lemma tracks_nothing s o : tracks s s [] o.
Proof. split; [auto|]. intros _. apply same_refl. Qed.
Lemma tracks_then s s1 s2 q1 q2 o : tracks s s1 q1 o -> tracks s1 s2 q2 o -> tracks s s2 (q1 ++ q2) o.
Proof.
  intros [A B] [A' B']. split; [auto|]. intros H. rewrite to_cmce_app, follow_app. eapply same_trans; [apply follow_same, (B H)|exact (B' H)].
Qed.
Lemma tracks_quiet s s' q q' o : tracks s s' q o -> to_cmce q' = [] -> tracks s s' (q ++ q') o.
Proof. intros [A B] E. split; [exact A|]. rewrite to_cmce_app, E, app_nil_r. exact B. Qed.

Lemma lu_tracks cfg i p s s' q : rx_u_lu_demand cfg i p s = Ok (s', q) -> tracks s s' q (forall l, lu_groups p = Some l -> orderly l).
Proof.
  unfold rx_u_lu_demand. destruct (lu_supported p); cbn [negb]; [|intros [= <- <-]; apply tracks_nothing].
  set (issi := ad_ssi (di_addr i)). set (t := di_dltime i).
  set (first := if negb (client_is_known issi s) then _ else _).
  assert (F : match first with Some (s1, q1) => tracks s s1 q1 (forall l, lu_groups p = Some l -> orderly l) | None => True end).
  { unfold first, client_is_known. destruct (aget issi (mo_clients s)) as [c|] eqn:E; cbn [negb].
    - destruct (set_client_state issi ClAttached s) as [s1|] eqn:E1; cbn [option_map]; [|exact Logic.I].
      destruct (set_state_view _ _ _ _ E1) as [V R]. split.
      + intros [I Y]. split; [now rewrite R|]. unfold regv. rewrite R. eapply same_trans; [exact Y|apply same_sym, V].
      + intros _. apply same_sym, V.
    - destruct (register_radio cfg t issi s) as [s1 q1] eqn:E1. split; [exact (register_sync _ _ _ _ _ _ E1)|].
      intros _. exact (register_follow _ _ _ _ _ _ E1 E). }
  destruct first as [[s1 q1]|]; [|intros [= <- <-]; apply tracks_nothing].
  set (second := match u_lu_demand_group_identity_location_demand p with Some d => _ | None => _ end).
  assert (G : let '(s2, _, q2) := second in tracks s1 s2 q2 (forall l, lu_groups p = Some l -> orderly l)).
  { unfold second, lu_groups. destruct (u_lu_demand_group_identity_location_demand p) as [d|]; [|apply tracks_nothing].
    destruct (gild_uplink d) as [l|]; [|apply tracks_nothing]. destruct (attach_groups cfg t issi l s1) as [[s2 acc] q2] eqn:E2.
    split; [exact (attach_groups_sync _ _ _ _ _ _ _ _ E2)|]. intros O. exact (attach_groups_follow _ _ _ _ _ _ _ _ E2 (O l eq_refl)). }
  destruct second as [[s2 g] q2]. intros H.
  destruct (mm_encode 34 _) as [[]| |]; [|discriminate H..]. cbn [bind] in H.
  destruct (if negb (client_is_known issi s) && negb (u_lu_demand_location_update_type p =? 3) then _ else _) as [c| |] eqn:EC; [|discriminate H..].
  cbn [bind] in H. injection H as <- <-. apply (tracks_then s s1 s2 q1 _ _ F). apply tracks_quiet; [exact G|].
  destruct (negb (client_is_known issi s) && negb (u_lu_demand_location_update_type p =? 3)).
  - destruct (lu_command_msg t issi (di_handle i)) as [m| |] eqn:EM; [|discriminate EC..]. cbn [bind] in EC. injection EC as <-.
    unfold lu_command_msg in EM. destruct (mm_encode 16 _) as [[]| |]; [|discriminate EM..]. cbn [bind] in EM. injection EM as <-. reflexivity.
  - injection EC as <-. reflexivity.
Qed.
Lemma attach_tracks cfg hint i p s s' q : rx_u_attach_detach cfg hint i p s = Ok (s', q) ->
  tracks s s' q (forall l, u_attach_detach_group_identity_uplink p = Some l -> orderly l).
Proof.
  unfold rx_u_attach_detach. destruct (u_attach_detach_group_identity_uplink p) as [l|]; [|intros [= <- <-]; apply tracks_nothing].
  set (issi := ad_ssi (di_addr i)). set (t := di_dltime i).
  set (first := if u_attach_detach_group_identity_attach_detach_mode p then _ else _).
  assert (F : match first with Some (s1, q1) => tracks s s1 q1 (forall l', Some l = Some l' -> orderly l') | None => True end).
  { unfold first, client_is_known. destruct (u_attach_detach_group_identity_attach_detach_mode p); [|apply tracks_nothing].
    destruct (aget issi (mo_clients s)) as [c|] eqn:E; cbn [negb].
    - destruct (drop_groups cfg hint t issi s) as [[s1 q1]|] eqn:E1; [|exact Logic.I].
      split; [exact (drop_sync _ _ _ _ _ _ _ E1)|]. intros _. exact (drop_follow _ _ _ _ _ _ _ E1).
    - destruct (register_radio cfg t issi s) as [s1 q1] eqn:E1. split; [exact (register_sync _ _ _ _ _ _ E1)|].
      intros _. exact (register_follow _ _ _ _ _ _ E1 E). }
  destruct first as [[s1 q1]|]; [|intros [= <- <-]; apply tracks_nothing].
  destruct (attach_groups cfg t issi l s1) as [[s2 acc] q2] eqn:E2. intros H.
  destruct (mm_encode 32 _) as [[]| |]; [|discriminate H..]. cbn [bind] in H. injection H as <- <-.
  apply (tracks_then s s1 s2 q1 _ _ F). apply tracks_quiet; [|reflexivity].
  split; [exact (attach_groups_sync _ _ _ _ _ _ _ _ E2)|]. intros O. exact (attach_groups_follow _ _ _ _ _ _ _ _ E2 (O l eq_refl)).
Qed.
Lemma tracks_weaken s s' q (o o' : Prop) : (o' -> o) -> tracks s s' q o -> tracks s s' q o'.
Proof. intros H [A B]. split; auto. Qed.

Lemma rx_tracks cfg hint i s s' q : mm_rx cfg hint i s = Ok (s', q) -> tracks s s' q (orderly_request i).
Proof.
  unfold mm_rx. destruct (BitBuffer.peek_bits (di_sdu i) 4) as [[t|]| |]; cbn [bind]; [|intros [= <- <-]; apply tracks_nothing|discriminate..].
  unfold mm_parsed.
  destruct (t =? MmUl_UItsiDetach).
  { destruct (u_itsi_detach_from_bitbuf (di_sdu i)) as [[p b]| |]; [|intros [= <- <-]; apply tracks_nothing|discriminate].
    intros H. injection H as H. split; [exact (detach_sync _ _ _ _ _ _ H)|]. intros _. exact (detach_follow _ _ _ _ _ _ H). }
  destruct (t =? MmUl_ULocationUpdateDemand).
  { destruct (u_lu_demand_from_bitbuf (di_sdu i)) as [[p b]| |] eqn:E; [|intros [= <- <-]; apply tracks_nothing|discriminate].
    intros H. apply lu_tracks in H. eapply tracks_weaken; [|exact H]. intros [O _] l. exact (O p b l E). }
  destruct (t =? MmUl_UMmStatus).
  { destruct (u_mm_status_from_bitbuf (di_sdu i)) as [[p b]| |] eqn:E; [|intros [= <- <-]; apply tracks_nothing|discriminate].
    unfold rx_u_mm_status. destruct (mm_encode 14 _) as [[]| |]; cbn [bind]; [|discriminate..]. intros [= <- <-]. split; [auto|]. intros _. apply same_refl. }
  destruct (t =? MmUl_UAttachDetachGroupIdentity).
  { destruct (u_attach_detach_from_bitbuf (di_sdu i)) as [[p b]| |] eqn:E; [|intros [= <- <-]; apply tracks_nothing|discriminate].
    intros H. apply attach_tracks in H. eapply tracks_weaken; [|exact H]. intros [_ O] l. exact (O p b l E). }
  intros [= <- <-]. apply tracks_nothing.
Qed.

(** ** The system *)
Record together (cfg : cfg_route) (ok : mm_ind -> Prop) (y : sys) : Prop := {
  tg_sync : sync (sy_mob y);
  tg_cc : reachable cfg (sy_cc y);
  tg_follow : (forall i, ok i -> orderly_request i) -> same (follow (ccv (sy_cc y)) (sy_pending y)) (mmv (sy_mob y)) }.
Lemma runs_together cfg ok y : runs_to cfg ok y -> together cfg ok y.
Proof.
  induction 1 as [|m c p hint i m' q R IH OK E|m c u p hg hint c' q R IH E|m c p e c' q R IH NE E].
  - constructor; cbn [sy_mob sy_cc sy_pending].
    + split; [|intros i; exact Logic.I]. exists []. split; [constructor|]. split; [cbn; auto|]. intros g. cbn. split; [discriminate|intros (i & H); discriminate H].
    + apply reachable_start.
    + intros _ i. exact Logic.I.
  - destruct IH as [Y C F]. cbn [sy_mob sy_cc sy_pending] in *. destruct (rx_tracks _ _ _ _ _ _ E) as [T1 T2]. constructor; cbn [sy_mob sy_cc sy_pending]; [auto|exact C|].
    intros O. rewrite follow_app. eapply same_trans; [apply follow_same, (F O)|]. exact (T2 (O i OK)).
  - destruct IH as [Y C F]. cbn [sy_mob sy_cc sy_pending] in *. constructor; cbn [sy_mob sy_cc sy_pending]; [exact Y|eapply reachable_step; eassumption|].
    intros O. eapply same_trans; [|exact (F O)]. cbn [follow fold_left]. apply follow_same.
    pose proof (W_reachable cfg c C) as W. cbn [cc_step] in E. destruct u as [issi gs a].
    exact (update_view _ _ _ _ _ _ _ _ _ (w_keys _ _ _ W) (w_nodup _ _ _ W) E).
  - destruct IH as [Y C F]. cbn [sy_mob sy_cc sy_pending] in *. constructor; cbn [sy_mob sy_cc sy_pending]; [exact Y|eapply reachable_step; eassumption|].
    intros O. eapply same_trans; [|exact (F O)]. apply follow_same. unfold ccv. rewrite (step_subs cfg c e c' q C E); [apply same_refl|]. now destruct e.
Qed.
