(** What the network knows of the radios (C57). *)
From Coq Require Import Permutation.
From Verif Require Import Base AMap AMapOrder AMapOrderProofs TdmaTime CmceFields BrewRoute Registry CallControl VoicePack JitterBuffer BrewProtocol BrewProtocolProofs
  BrewWorker BrewEntity BrewViewSpec.
Open Scope N_scope.

(** Views that agree; a view that says no more than another *)
Definition same (v w : view) : Prop := (forall r, v_reg v r <-> v_reg w r) /\ (forall r g, v_aff v r g <-> v_aff w r g).
Definition below (v w : view) : Prop := (forall r, v_reg v r -> v_reg w r) /\ (forall r g, v_aff v r g -> v_aff w r g).

(** ** What a command means to the server *)
Definition told (v : view) (c : brew_cmd) : view :=
  match c with
  | BcRegister r => registers r v
  | BcDeregister r => leaves r v
  | BcAffiliate r gs => joins r gs v
  | BcDeaffiliate r gs => quits r gs v
  | _ => v
  end.
Definition tells (cs : list brew_cmd) (v : view) : view := fold_left told cs v.

Definition cmd_ok (c : brew_cmd) : Prop :=
  match c with
  | BcRegister r | BcDeregister r => u32 r
  | BcAffiliate r gs | BcDeaffiliate r gs => u32 r /\ Forall u32 gs
  | BcDisconnect => False
  | _ => True
  end.

Lemma not_subscriber k t : k <> 240 -> forall m, parse_brew_message (k :: t) <> Ok (inl (BmSubscriber m)).
Proof.
  intros K m. unfold parse_brew_message. destruct (_ <? _)%nat; [discriminate|]. change (at_ (k :: t) 0) with (Ok k). cbn [bind].
  destruct (at_ (k :: t) 1) as [ty| |]; cbn [bind]; try discriminate. rewrite (proj2 (N.eqb_neq k 240) K).
  repeat match goal with |- context [if ?b then _ else _] => destruct b end; try discriminate.
  - unfold parse_call_control. destruct (_ <? _)%nat; [discriminate|]. destruct (read_uuid _) as [[id|e]| |]; cbn [bind]; try discriminate.
    destruct (from_ _ _); cbn [bind]; try discriminate. destruct (parse_payload _ _) as [[p|e]| |]; cbn [bind]; discriminate.
  - unfold parse_frame. destruct (_ <? _)%nat; [discriminate|]. destruct (read_uuid _) as [[id|e]| |]; cbn [bind]; try discriminate.
    destruct (read_le _ _ _); cbn [bind]; try discriminate. destruct (from_ _ _); cbn [bind]; discriminate.
  - unfold parse_error. destruct (from_ _ _); cbn [bind]; discriminate.
  - unfold parse_service. destruct (from_ _ _); cbn [bind]; try discriminate. destruct (utf8_ok _); discriminate.
Qed.
Lemma server_other v k t : k <> 240 -> server_after v (k :: t) = v.
Proof. intros K. unfold server_after. destruct (parse_brew_message (k :: t)) as [[[m| | | |]|]| |] eqn:E; try reflexivity. now apply not_subscriber in E. Qed.

Lemma command_told cfg n sent hint hg c w w' m v : clock n -> cmd_ok c -> worker_command cfg n sent hint hg c w = (w', m) ->
  fold_left server_after m v = told v c.
Proof.
  intros Hn Hc E. destruct c; cbn [worker_command cmd_ok] in *.
  - destruct (reads_subscriber n issi [] Hc Hn (Forall_nil _)) as (R1 & R2 & _).
    destruct (aget issi (wk_subs w)); injection E as <- <-; cbn [fold_left]; unfold server_after; [rewrite R2|rewrite R1]; reflexivity.
  - destruct (reads_subscriber n issi [] Hc Hn (Forall_nil _)) as (_ & _ & _ & _ & R). injection E as <- <-. cbn [fold_left]. unfold server_after. now rewrite R.
  - destruct Hc as [Hi Hg]. destruct (reads_subscriber n issi groups Hi Hn Hg) as (_ & _ & R & _). injection E as <- <-. cbn [fold_left]. unfold server_after. now rewrite R.
  - destruct Hc as [Hi Hg]. destruct (reads_subscriber n issi groups Hi Hn Hg) as (_ & _ & _ & R & _). injection E as <- <-. cbn [fold_left]. unfold server_after. now rewrite R.
  - injection E as <- <-. now apply server_other.
  - injection E as <- <-. now apply server_other.
  - injection E as <- <-. now apply server_other.
  - injection E as <- <-. destruct (brew_sds_enabled cfg); [|reflexivity]. destruct sent; cbn [fold_left]; unfold build_short_transfer, build_sds_frame; now rewrite ?server_other.
  - injection E as <- <-. destruct (brew_sds_enabled cfg); [|reflexivity]. now apply server_other.
  - destruct Hc.
Qed.
Lemma works_told cfg w cs w' ms : works cfg w cs w' ms -> Forall cmd_ok cs -> forall v, fold_left server_after ms v = tells cs v.
Proof.
  induction 1 as [|w n sent hint hg c w1 m t w2 ms Hn E _ IH]; intros F v; [reflexivity|]. apply Forall_cons_iff in F. destruct F as [Fc Ft].
  rewrite fold_left_app, (command_told _ _ _ _ _ _ _ _ _ v Hn Fc E). exact (IH Ft _).
Qed.

(** ** The entity's own book *)
Section Config.
Variable cfg : cfg_route.
Variable lat : nat.

Definition book_aff (s : brew) (r g : N) : Prop := exists l, aget r (be_subs s) = Some l /\ In g l.
Definition book_ok (s : brew) : Prop := NoDup (akeys (be_subs s)) /\ forall r l, aget r (be_subs s) = Some l -> u32 r /\ Forall u32 l.

Lemma inserted groups : forall l l' new, insert_groups groups l = (l', new) ->
  (forall x, In x l' <-> In x groups \/ In x l) /\ (forall x, In x new -> In x groups) /\ (forall x, In x groups -> In x new \/ In x l).
Proof.
  induction groups as [|g t IH]; intros l l' new H; cbn [insert_groups] in H.
  - injection H as <- <-. cbn. firstorder.
  - destruct (memN g l) eqn:M.
    + apply memN_true in M. destruct (IH _ _ _ H) as (H1 & H2 & H3). cbn [In]. split; [intros x; rewrite H1|split; [|intros x [<-|]]]; try solve [intuition (subst; auto)].
    + destruct (insert_groups t (g :: l)) as [l1 n1] eqn:E. injection H as <- <-. destruct (IH _ _ _ E) as (H1 & H2 & H3). cbn [In] in *.
      split; [intros x; rewrite H1|split; intros x]; [intuition (subst; auto)|intros [<-|Hx]; auto|].
      intros [<-|Hx]; [auto|]. destruct (H3 _ Hx) as [?|[?|?]]; auto.
Qed.
Lemma removed groups : forall l l' gone, remove_groups groups l = (l', gone) ->
  (forall x, In x l' <-> In x l /\ ~ In x groups) /\ (forall x, In x gone <-> In x groups /\ In x l).
Proof.
  induction groups as [|g t IH]; intros l l' gone H; cbn [remove_groups] in H.
  - injection H as <- <-. cbn. split; intros x; tauto.
  - destruct (memN g l) eqn:M.
    + apply memN_true in M. destruct (remove_groups t _) as [l1 g1] eqn:E. injection H as <- <-. destruct (IH _ _ _ E) as (H1 & H2).
      assert (F : forall x, In x (filter (fun y => negb (g =? y)) l) <-> In x l /\ g <> x).
      { intros x. rewrite filter_In, negb_true_iff, N.eqb_neq. tauto. }
      cbn [In]. split; intros x; [rewrite H1, F; tauto|]. rewrite H2, F. destruct (N.eq_dec g x) as [<-|]; tauto.
    + apply memN_false in M. destruct (IH _ _ _ H) as (H1 & H2). cbn [In]. split; intros x; [rewrite H1|rewrite H2]; (destruct (N.eq_dec g x) as [<-|]; tauto).
Qed.

(** The view of the network is right. *)
Definition right_aff (v : view) (s : brew) : Prop := forall r g, v_aff v r g <-> brew_issi_routable cfg r = true /\ book_aff s r g.
Definition right_reg (v : view) (s : brew) : Prop := forall r, v_reg v r <-> brew_issi_routable cfg r = true /\ aget r (be_subs s) <> None.

Lemma book_set r l s x g : book_aff (be_set_subs (aset r l (be_subs s)) s) x g <-> x = r /\ In g l \/ x <> r /\ book_aff s x g.
Proof.
  unfold book_aff. cbn [be_subs be_set_subs]. rewrite aget_aset. destruct (N.eqb_spec x r) as [->|N]; split.
  - intros (l' & E & H). injection E as <-. auto.
  - intros [[_ H]|[H _]]; [now exists l|easy].
  - auto.
  - intros [[H _]|[_ H]]; [easy|exact H].
Qed.
Lemma book_del r s x g : book_aff (be_set_subs (adel r (be_subs s)) s) x g <-> x <> r /\ book_aff s x g.
Proof.
  unfold book_aff. cbn [be_subs be_set_subs]. rewrite aget_adel. destruct (N.eqb_spec x r) as [->|N]; split; intros H; try tauto.
  destruct H as (l & H & _). discriminate. 
Qed.

(** One update *)
Lemma update_ok hint r gs a s s' o : book_ok s -> u32 r -> Forall u32 gs -> be_subscriber_update cfg hint r gs a s = (s', o) ->
  book_ok s' /\ Forall cmd_ok (commands o).
Proof.
  intros [ND B] Hr Hg E. unfold be_subscriber_update in E. cbv zeta in E. destruct a.
  - injection E as <- <-. split; [|destruct (brew_issi_routable cfg r); repeat constructor; exact Hr].
    destruct (aget r (be_subs s)); [now split|]. split; cbn [be_subs be_set_subs]; [now apply nodup_aset|]. intros x l. rewrite aget_aset.
    destruct (N.eqb_spec x r) as [->|]; [|apply B]. intros E. injection E as <-. auto.
  - injection E as <- <-. split.
    + split; cbn [be_subs be_set_subs]; [now apply nodup_adel|]. intros x l. rewrite aget_adel. destruct (x =? r); [discriminate|apply B].
    + destruct (brew_issi_routable cfg r); [|constructor]. destruct (aget r (be_subs s)) as [l|] eqn:El; [|repeat constructor; exact Hr].
      destruct (B _ _ El) as [_ Bl]. assert (F : Forall u32 (arrange_set hint l)) by (rewrite Forall_forall in *; intros y Hy; apply arrange_set_in in Hy; auto).
      destruct (arrange_set hint l); cbn; repeat constructor; try exact Hr; now apply Forall_cons_iff in F.
  - destruct (insert_groups gs _) as [l' new] eqn:Ei. injection E as <- <-. apply inserted in Ei. destruct Ei as (I1 & I2 & _).
    rewrite Forall_forall in Hg. split.
    + split; cbn [be_subs be_set_subs]; [now apply nodup_aset|]. intros x l. rewrite aget_aset. destruct (N.eqb_spec x r) as [->|]; [|apply B].
      intros E. injection E as <-. split; [exact Hr|]. apply Forall_forall. intros y Hy. apply I1 in Hy. destruct Hy as [Hy|Hy]; [auto|].
      destruct (aget r (be_subs s)) as [l0|] eqn:El; [|destruct Hy]. destruct (B _ _ El) as [_ Bl]. rewrite Forall_forall in Bl. auto.
    + assert (F : Forall u32 new) by (apply Forall_forall; auto). destruct new; [constructor|]. destruct (brew_issi_routable cfg r); cbn; repeat constructor; try exact Hr;
        now apply Forall_cons_iff in F.
  - destruct (aget r (be_subs s)) as [l0|] eqn:El; [|injection E as <- <-; split; [now split|constructor]].
    destruct (remove_groups gs l0) as [l' gone] eqn:Ei. injection E as <- <-. apply removed in Ei. destruct Ei as (I1 & I2).
    rewrite Forall_forall in Hg. destruct (B _ _ El) as [_ Bl]. rewrite Forall_forall in Bl. split.
    + split; cbn [be_subs be_set_subs]; [now apply nodup_aset|]. intros x l. rewrite aget_aset. destruct (N.eqb_spec x r) as [->|]; [|apply B].
      intros E. injection E as <-. split; [exact Hr|]. apply Forall_forall. intros y Hy. apply I1 in Hy. now apply Bl.
    + assert (F : Forall u32 gone) by (apply Forall_forall; intros y Hy; apply I2 in Hy; now apply Bl). destruct gone; [constructor|].
      destruct (brew_issi_routable cfg r); cbn; repeat constructor; try exact Hr; now apply Forall_cons_iff in F.
Qed.

Lemma update_aff hint r gs a s s' o v : right_aff v s -> be_subscriber_update cfg hint r gs a s = (s', o) -> right_aff (tells (commands o) v) s'.
Proof.
  intros R E x g. specialize (R x g). unfold be_subscriber_update in E. cbv zeta in E. destruct a.
  - injection E as <- <-. transitivity (v_aff v x g); [destruct (brew_issi_routable cfg r); reflexivity|]. rewrite R. clear R.
    destruct (aget r (be_subs s)) eqn:El; [reflexivity|]. rewrite book_set. unfold book_aff at 1. destruct (N.eq_dec x r) as [->|]; [rewrite El|tauto].
    split; [intros (_ & l & H & _); discriminate|]. intros (_ & [[_ []]|[H _]]); congruence.
  - injection E as <- <-. rewrite book_del.
    assert (X : forall u : view, v_aff (told u (BcDeregister r)) x g <-> x <> r /\ v_aff u x g) by (intros u; reflexivity).
    destruct (brew_issi_routable cfg r) eqn:Er.
    + destruct (match aget r (be_subs s) with Some l => arrange_set hint l | None => [] end) as [|y t];
        cbn [app commands flat_map tells fold_left]; rewrite X; [tauto|]. cbn [told quits v_aff]. intuition.
    + cbn [commands flat_map tells fold_left]. rewrite R. split; [|tauto]. intros [H B]. split; [exact H|]. split; [congruence|exact B].
  - destruct (insert_groups gs _) as [l' new] eqn:Ei. injection E as <- <-. apply inserted in Ei. destruct Ei as (I1 & I2 & I3). rewrite book_set.
    set (l0 := match aget r (be_subs s) with Some l => l | None => [] end) in *.
    assert (B0 : forall y, In y l0 <-> book_aff s r y).
    { intros y. unfold l0, book_aff. destruct (aget r (be_subs s)) as [l|]; split; [intros H; now exists l|intros (? & E & H); now injection E as <-|intros []|intros (? & E & _); discriminate]. }
    assert (X : v_aff (tells (commands (match new with [] => [] | _ => if brew_issi_routable cfg r then [BoCmd (BcAffiliate r new)] else [] end)) v) x g <->
                (brew_issi_routable cfg r = true /\ x = r /\ In g new) \/ v_aff v x g).
    { destruct new as [|y t]; [cbn; tauto|]. destruct (brew_issi_routable cfg r); cbn; [tauto|]. intuition discriminate. }
    rewrite X, R. clear X R. specialize (I1 g). specialize (I2 g). specialize (I3 g). specialize (B0 g). destruct (N.eq_dec x r) as [->|]; tauto.
  - destruct (aget r (be_subs s)) as [l0|] eqn:El; [|injection E as <- <-; exact R].
    destruct (remove_groups gs l0) as [l' gone] eqn:Ei. injection E as <- <-. apply removed in Ei. destruct Ei as (I1 & I2). rewrite book_set.
    assert (B0 : forall y, In y l0 <-> book_aff s r y).
    { intros y. unfold book_aff. rewrite El. split; [intros H; now exists l0|intros (? & E & H); now injection E as <-]. }
    assert (X : v_aff (tells (commands (match gone with [] => [] | _ => if brew_issi_routable cfg r then [BoCmd (BcDeaffiliate r gone)] else [] end)) v) x g <->
                ~ (brew_issi_routable cfg r = true /\ x = r /\ In g gone) /\ v_aff v x g).
    { destruct gone as [|y t]; [cbn; tauto|]. destruct (brew_issi_routable cfg r); cbn; [tauto|]. intuition discriminate. }
    rewrite X, R. clear X R. specialize (I1 g). specialize (I2 g). specialize (B0 g). destruct (N.eq_dec x r) as [->|]; tauto.
Qed.
Lemma update_reg hint r gs a s s' o v : right_reg v s -> (a = SubAffiliate -> brew_issi_routable cfg r = true -> v_reg v r) ->
  be_subscriber_update cfg hint r gs a s = (s', o) -> right_reg (tells (commands o) v) s'.
Proof.
  intros R A E x. pose proof (R x) as Rx. unfold be_subscriber_update in E. cbv zeta in E. destruct a.
  - injection E as <- <-.
    assert (X : aget x (be_subs match aget r (be_subs s) with Some _ => s | None => be_set_subs (aset r [] (be_subs s)) s end) <> None <-> x = r \/ aget x (be_subs s) <> None).
    { destruct (aget r (be_subs s)) as [l|] eqn:El; [|cbn [be_subs be_set_subs]; rewrite aget_aset; destruct (N.eqb_spec x r)]; [|intuition discriminate|tauto].
      destruct (N.eq_dec x r) as [->|]; [rewrite El; intuition discriminate|tauto]. }
    rewrite X. destruct (brew_issi_routable cfg r) eqn:Er; cbn.
    + destruct (N.eq_dec x r) as [->|]; tauto.
    + rewrite Rx. destruct (N.eq_dec x r) as [->|]; [rewrite Er; intuition discriminate|tauto].
  - injection E as <- <-. cbn [be_subs be_set_subs]. rewrite aget_adel.
    destruct (brew_issi_routable cfg r) eqn:Er.
    + transitivity (x <> r /\ v_reg v x).
      { destruct (match aget r (be_subs s) with Some l => arrange_set hint l | None => [] end) as [|y t]; cbn; tauto. }
      rewrite Rx. destruct (N.eqb_spec x r); intuition congruence.
    + cbn. rewrite Rx. destruct (N.eqb_spec x r) as [->|]; intuition congruence.
  - destruct (insert_groups gs _) as [l' new] eqn:Ei. injection E as <- <-. cbn [be_subs be_set_subs]. rewrite aget_aset.
    transitivity (v_reg v x); [destruct new; [reflexivity|]; destruct (brew_issi_routable cfg r); reflexivity|].
    destruct (N.eqb_spec x r) as [->|]; [|exact Rx]. split; [|intros [H _]; auto]. intros H. apply Rx in H. split; [tauto|discriminate].
  - destruct (aget r (be_subs s)) as [l0|] eqn:El; [|injection E as <- <-; exact Rx].
    destruct (remove_groups gs l0) as [l' gone] eqn:Ei. injection E as <- <-. cbn [be_subs be_set_subs]. rewrite aget_aset.
    transitivity (v_reg v x); [destruct gone; [reflexivity|]; destruct (brew_issi_routable cfg r); reflexivity|].
    rewrite Rx. destruct (N.eqb_spec x r) as [->|]; [|reflexivity]. rewrite El. intuition discriminate.
Qed.

(** ** Telling everything again *)
Lemma tells_app a b v : tells (a ++ b) v = tells b (tells a v).
Proof. apply fold_left_app. Qed.
Lemma commands_app a b : commands (a ++ b) = commands a ++ commands b.
Proof. apply flat_map_app. Qed.

Definition again (hg : list N) (p : N * list N) : list brew_out :=
  let (r, gs) := p in
  if negb (brew_issi_routable cfg r) then []
  else BoCmd (BcRegister r) :: (match gs with [] => [] | _ => [BoCmd (BcAffiliate r (arrange_set hg gs))] end).
Lemma again_list hg l v :
  (forall r g, v_aff (tells (commands (flat_map (again hg) l)) v) r g <-> v_aff v r g \/ brew_issi_routable cfg r = true /\ exists gs, In (r, gs) l /\ In g gs) /\
  (forall r, v_reg (tells (commands (flat_map (again hg) l)) v) r <-> v_reg v r \/ brew_issi_routable cfg r = true /\ exists gs, In (r, gs) l).
Proof.
  revert v. induction l as [|[x gs] t IH]; intros v.
  { cbn [flat_map commands tells fold_left]. split; intros; (split; [now left|]); (intros [H|(_ & gs & H)]; [exact H|]); [destruct H as [[] _]|destruct H]. }
  cbn [flat_map]. rewrite commands_app, tells_app. destruct (IH (tells (commands (again hg (x, gs))) v)) as [IH1 IH2]. clear IH.
  assert (A1 : forall r g, v_aff (tells (commands (again hg (x, gs))) v) r g <-> v_aff v r g \/ brew_issi_routable cfg r = true /\ r = x /\ In g gs).
  { intros r g. unfold again. destruct (brew_issi_routable cfg x) eqn:Ex; cbn [negb].
    - destruct gs as [|y z]; [cbn; tauto|]. set (k := y :: z). cbn [commands flat_map app tells fold_left told joins registers v_aff]. rewrite arrange_set_in.
      split; [|intuition]. intros [[-> H]|H]; auto.
    - cbn. split; [auto|]. intros [H|(H1 & -> & _)]; [exact H|congruence]. }
  assert (A2 : forall r, v_reg (tells (commands (again hg (x, gs))) v) r <-> v_reg v r \/ brew_issi_routable cfg r = true /\ r = x).
  { intros r. unfold again. destruct (brew_issi_routable cfg x) eqn:Ex; cbn [negb].
    - transitivity (r = x \/ v_reg v r); [destruct gs; reflexivity|]. split; [|intuition]. intros [->|H]; auto.
    - cbn. split; [auto|]. intros [H|(H1 & ->)]; [exact H|congruence]. }
  split.
  - intros r g. rewrite IH1, A1. split.
    + intros [[H|(H1 & -> & H2)]|(H1 & gs' & H2 & H3)]; [auto|right; split; [exact H1|exists gs; cbn; auto]|right; split; [exact H1|exists gs'; cbn; auto]].
    + intros [H|(H1 & gs' & [H2|H2] & H3)]; [auto|injection H2 as <- <-; auto|right; split; [exact H1|now exists gs']].
  - intros r. rewrite IH2, A2. split.
    + intros [[H|(H1 & ->)]|(H1 & gs' & H2)]; [auto|right; split; [exact H1|exists gs; cbn; auto]|right; split; [exact H1|exists gs'; cbn; auto]].
    + intros [H|(H1 & gs' & [H2|H2])]; [auto|injection H2 as <- <-; auto|right; split; [exact H1|now exists gs']].
Qed.
Lemma resync_spec hint hg s v : book_ok s ->
  (forall r g, v_aff (tells (commands (be_resync cfg hint hg s)) v) r g <-> v_aff v r g \/ brew_issi_routable cfg r = true /\ book_aff s r g) /\
  (forall r, v_reg (tells (commands (be_resync cfg hint hg s)) v) r <-> v_reg v r \/ brew_issi_routable cfg r = true /\ aget r (be_subs s) <> None).
Proof.
  intros [ND _]. change (be_resync cfg hint hg s) with (flat_map (again hg) (arrange hint (be_subs s))).
  destruct (again_list hg (arrange hint (be_subs s)) v) as [A1 A2]. split.
  - intros r g. rewrite A1. unfold book_aff. split; (intros [H|(H1 & l & H2 & H3)]; [now left|right; split; [exact H1|exists l; split; [|exact H3]]]; now apply (arrange_in hint _ r l ND)).
  - intros r. rewrite A2. split; (intros [H|(H1 & H2)]; [now left|right; split; [exact H1|]]).
    + destruct H2 as (l & H2). apply (arrange_in hint _ r l ND) in H2. congruence.
    + destruct (aget r (be_subs s)) as [l|] eqn:E; [|easy]. exists l. now apply (arrange_in hint _ r l ND).
Qed.
Lemma resync_ok hint hg s : book_ok s -> Forall cmd_ok (commands (be_resync cfg hint hg s)).
Proof.
  intros [ND B]. change (be_resync cfg hint hg s) with (flat_map (again hg) (arrange hint (be_subs s))).
  assert (P : Forall (fun p => u32 (fst p) /\ Forall u32 (snd p)) (arrange hint (be_subs s))).
  { apply Forall_forall. intros [r l] H. apply (arrange_in hint _ r l ND) in H. exact (B _ _ H). }
  induction P as [|[r l] t [P1 P2] _ IH]; [constructor|]. cbn [flat_map fst snd] in *. rewrite commands_app. apply Forall_app. split; [|exact IH].
  unfold again. destruct (negb _); [constructor|]. destruct l as [|y z]; [repeat constructor; exact P1|]. cbn [commands flat_map app]. constructor; [exact P1|].
  constructor; [|constructor]. split; [exact P1|]. rewrite Forall_forall in *. intros w Hw. apply arrange_set_in in Hw. auto.
Qed.

(** ** One step *)
(** Steps that neither touch the book nor tell the server anything *)
Lemma step_other i s s' o : be_step cfg lat i s = Ok (s', o) ->
  match i with InSubscriber _ _ _ _ | InEvent _ _ _ _ BeConnected => True
  | _ => be_subs s' = be_subs s /\ Forall (fun c => match c with BcRegister _ | BcDeregister _ | BcAffiliate _ _ | BcDeaffiliate _ _ | BcDisconnect => False | _ => True end) (commands o)
  end.
Proof.
  intros E. destruct i; cbn [be_step] in E; try exact Logic.I.
  - injection E as <- <-. now repeat constructor.
  - destruct e; try exact Logic.I; cbn [be_event] in E.
    + unfold be_release_all in E. injection E as <- <-. split; [reflexivity|]. cbn [be_active be_set_connected]. generalize (arrange hint (be_active s)). intros l.
      induction l; [constructor|exact IHl].
    + unfold be_group_call_start in E. destruct (aget uuid (be_active s)); [destruct (negb _)|]; injection E as <- <-; repeat constructor.
      unfold be_ensure_jitter. cbn. destruct (aget uuid (be_jitter s)); reflexivity.
    + unfold be_group_call_end in E. destruct (aget uuid (be_active s)) as [c|]; [|now injection E as <- <-; repeat constructor]. injection E as <- <-. split; [|repeat constructor].
      destruct (nc_ready c); reflexivity.
    + injection E as <- <-. split; [|constructor]. unfold be_voice_frame. destruct (aget uuid (be_active s)) as [c|]; [|reflexivity]. destruct (nc_ready c); [|reflexivity].
      destruct (ste_to_acelp data); [|reflexivity]. assert (X : be_subs (be_ensure_jitter lat uuid s) = be_subs s) by (unfold be_ensure_jitter; destruct (aget uuid (be_jitter s)); reflexivity).
      destruct (aget uuid (be_jitter (be_ensure_jitter lat uuid s))); [|exact X]. exact X.
    + injection E as <- <-. now repeat constructor.
    + injection E as <- <-. split; [reflexivity|]. unfold be_sds_transfer. destruct (negb _); repeat constructor.
    + injection E as <- <-. now repeat constructor.
    + injection E as <- <-. now repeat constructor.
  - unfold be_drain in E. destruct (tm_f (be_dltime s) =? 18)%Z; [injection E as <- <-; now repeat constructor|]. injection E as E. revert E.
    generalize (arrange hint (be_active s)). intros l. revert s s' o. induction l as [|p t IH]; intros s s' o E; cbn [be_playout] in E.
    + injection E as <- <-. now repeat constructor.
    + destruct (be_playout_one jc p s) as [s1 o1] eqn:E1. destruct (be_playout jc t s1) as [s2 o2] eqn:E2. injection E as <- <-. destruct (IH _ _ _ E2) as [IH1 IH2]. rewrite IH1, commands_app.
      assert (X : be_subs s1 = be_subs s /\ commands o1 = []).
      { unfold be_playout_one in E1. destruct p as [u c]. destruct (nc_ready c) as [[[? ts] ?]|]; [|now injection E1 as <- <-]. destruct (negb _); [now injection E1 as <- <-|].
        destruct (aget u (be_jitter s)) as [b|]; [|now injection E1 as <- <-]. destruct (jb_pop _ _) as [f b']. injection E1 as <- <-. destruct f; now split. }
      destruct X as [X1 X2]. split; [exact X1|]. now rewrite X2.
  - injection E as <- <-. now repeat constructor.
  - destruct c; try solve [injection E as <- <-; now repeat constructor].
    + injection E as E. unfold be_local_start in E. destruct (negb (be_connected s)); [injection E as <- <-; now repeat constructor|]. destruct (negb _); injection E as <- <-; now repeat constructor.
    + injection E as E. unfold be_local_stopped in E. destruct (aget _ (be_fwd s)); injection E as <- <-; now repeat constructor.
    + injection E as <- <-. split; [|constructor]. unfold be_call_ready. destruct (aget _ (be_active s)); reflexivity.
    + injection E as <- <-. split; [|constructor]. unfold be_drop_call. destruct (aget _ (be_active s)); [reflexivity|]. destruct (find _ _) as [[]|]; reflexivity.
  - injection E as <- <-. split; [reflexivity|]. unfold be_sds_send. destruct (negb _); repeat constructor.
  - unfold be_ul_voice in E. destruct (aget _ (be_fwd s)); [|injection E as <- <-; now repeat constructor]. destruct (ul_voice_to_ste bits) as [f0| |]; cbn [bind] in E; try discriminate.
    injection E as <- <-. split; [reflexivity|]. destruct f0; repeat constructor.
Qed.
Lemma tells_other cs v : Forall (fun c => match c with BcRegister _ | BcDeregister _ | BcAffiliate _ _ | BcDeaffiliate _ _ | BcDisconnect => False | _ => True end) cs -> tells cs v = v.
Proof. intros F. revert v. induction F as [|c t Hc _ IH]; intros v; [reflexivity|]. cbn [tells fold_left]. destruct c; try destruct Hc; exact (IH v). Qed.
Lemma cmd_ok_other cs : Forall (fun c => match c with BcRegister _ | BcDeregister _ | BcAffiliate _ _ | BcDeaffiliate _ _ | BcDisconnect => False | _ => True end) cs -> Forall cmd_ok cs.
Proof. intros F. eapply Forall_impl; [|exact F]. intros c Hc. destruct c; try destruct Hc; exact Logic.I. Qed.
Lemma aff_same s s' : be_subs s' = be_subs s -> forall r g, book_aff s' r g <-> book_aff s r g.
Proof. intros E r g. unfold book_aff. now rewrite E. Qed.

Lemma step_ok i s s' o : book_ok s -> numbers_ok i -> be_step cfg lat i s = Ok (s', o) -> book_ok s' /\ Forall cmd_ok (commands o).
Proof.
  intros B Hi E. pose proof (step_other _ _ _ _ E) as X.
  assert (Y : be_subs s' = be_subs s -> book_ok s') by (intros Es; unfold book_ok; now rewrite Es).
  destruct i; try (destruct X as [X1 X2]; split; [exact (Y X1)|now apply cmd_ok_other]).
  - destruct e; try (destruct X as [X1 X2]; split; [exact (Y X1)|now apply cmd_ok_other]). cbn [be_step be_event] in E. injection E as <- <-. split; [exact B|]. now apply resync_ok.
  - cbn [be_step] in E. injection E as E. destruct Hi as [H1 H2]. exact (update_ok _ _ _ _ _ _ _ B H1 H2 E).
Qed.
Lemma step_aff i s s' o v : book_ok s -> right_aff v s -> be_step cfg lat i s = Ok (s', o) -> right_aff (tells (commands o) v) s'.
Proof.
  intros B R E. pose proof (step_other _ _ _ _ E) as X.
  assert (Y : forall cs, be_subs s' = be_subs s -> tells cs v = v -> right_aff (tells cs v) s') by (intros cs Es Ev r g; now rewrite Ev, (aff_same _ _ Es)).
  destruct i; try (destruct X as [X1 X2]; apply Y; [exact X1|now apply tells_other]).
  - destruct e; try (destruct X as [X1 X2]; apply Y; [exact X1|now apply tells_other]). cbn [be_step be_event] in E. injection E as <- <-. intros r g.
    rewrite (proj1 (resync_spec hint hint_groups (be_set_connected true s) v B)). rewrite (R r g). change (book_aff (be_set_connected true s) r g) with (book_aff s r g). tauto.
  - cbn [be_step] in E. injection E as E. exact (update_aff _ _ _ _ _ _ _ _ R E).
Qed.
Lemma step_reg i s s' o v : book_ok s -> right_reg v s -> (match i with InSubscriber _ r _ SubAffiliate => brew_issi_routable cfg r = true -> v_reg v r | _ => True end) ->
  be_step cfg lat i s = Ok (s', o) -> right_reg (tells (commands o) v) s'.
Proof.
  intros B R A E. pose proof (step_other _ _ _ _ E) as X.
  assert (Y : forall cs, be_subs s' = be_subs s -> tells cs v = v -> right_reg (tells cs v) s') by (intros cs Es Ev r; now rewrite Ev, Es).
  destruct i; try (destruct X as [X1 X2]; apply Y; [exact X1|now apply tells_other]).
  - destruct e; try (destruct X as [X1 X2]; apply Y; [exact X1|now apply tells_other]). cbn [be_step be_event] in E. injection E as <- <-. intros r.
    rewrite (proj2 (resync_spec hint hint_groups (be_set_connected true s) v B)). rewrite (R r). cbn [be_subs be_set_connected]. tauto.
  - cbn [be_step] in E. injection E as E. refine (update_reg _ _ _ _ _ _ _ _ R _ E). intros ->. exact A.
Qed.

(** The book is what was reported. *)
Definition kept (m : view) (s : brew) : Prop := (forall r g, v_aff m r g <-> book_aff s r g) /\ (forall r, v_reg m r -> aget r (be_subs s) <> None) /\
  (forall r, brew_issi_routable cfg r = true -> aget r (be_subs s) <> None -> v_reg m r).
Definition kept_aff (m : view) (s : brew) : Prop := (forall r g, v_aff m r g <-> book_aff s r g) /\ (forall r, v_reg m r -> aget r (be_subs s) <> None).
Definition kept_reg (m : view) (s : brew) : Prop := forall r, brew_issi_routable cfg r = true -> aget r (be_subs s) <> None -> v_reg m r.

Lemma step_kept_aff i s s' o m : kept_aff m s -> be_step cfg lat i s = Ok (s', o) -> kept_aff (reported_after m i) s'.
Proof.
  intros [K1 K2] E. pose proof (step_other _ _ _ _ E) as X.
  assert (Y : be_subs s' = be_subs s -> kept_aff m s') by (intros Es; split; [intros r g; now rewrite (aff_same _ _ Es)|rewrite Es; exact K2]).
  destruct i; try (destruct X as [X1 X2]; exact (Y X1)).
  - destruct e; try (destruct X as [X1 X2]; exact (Y X1)). cbn [be_step be_event] in E. injection E as <- <-. now split.
  - cbn [be_step] in E. injection E as E. unfold be_subscriber_update in E. cbv zeta in E. destruct action; cbn [reported_after].
    + injection E as <- _. split.
      * intros r g. cbn [registers v_aff]. rewrite K1. destruct (aget issi (be_subs s)) eqn:El; [reflexivity|]. rewrite book_set.
        unfold book_aff at 1. destruct (N.eq_dec r issi) as [->|]; [rewrite El|tauto]. split; [intros (l & H & _); discriminate|]. intros [[_ []]|[H _]]; congruence.
      * intros r [->|H].
        -- destruct (aget issi (be_subs s)) eqn:El; [congruence|]. cbn [be_subs be_set_subs]. rewrite aget_aset, N.eqb_refl. discriminate.
        -- destruct (aget issi (be_subs s)) eqn:El; [now apply K2|]. cbn [be_subs be_set_subs]. rewrite aget_aset. destruct (r =? issi); [discriminate|now apply K2].
    + injection E as <- _. split.
      * intros r g. cbn [leaves v_aff]. now rewrite book_del, K1.
      * intros r [N H]. cbn [be_subs be_set_subs]. rewrite aget_adel. destruct (N.eqb_spec r issi); [easy|now apply K2].
    + destruct (insert_groups groups _) as [l' new] eqn:Ei. injection E as <- _. apply inserted in Ei. destruct Ei as (I1 & _). split.
      * intros r g. cbn [joins v_aff]. rewrite book_set, K1. specialize (I1 g). unfold book_aff. destruct (N.eq_dec r issi) as [->|]; [|tauto].
        rewrite I1. destruct (aget issi (be_subs s)) as [l|].
        -- split; [intros [[_ H]|(l2 & H & H2)]; [auto|injection H as <-; auto]|intros [[_ [H|H]]|[H _]]; [auto|right; now exists l|easy]].
        -- split; [intros [[_ H]|(l2 & H & H2)]; [auto|discriminate]|intros [[_ [H|[]]]|[H _]]; [auto|easy]].
      * intros r H. cbn [be_subs be_set_subs]. rewrite aget_aset. destruct (r =? issi); [discriminate|now apply K2].
    + destruct (aget issi (be_subs s)) as [l0|] eqn:El.
      * destruct (remove_groups groups l0) as [l' gone] eqn:Ei. injection E as <- _. apply removed in Ei. destruct Ei as (I1 & _). split.
        -- intros r g. cbn [quits v_aff]. rewrite book_set, K1. specialize (I1 g). unfold book_aff. destruct (N.eq_dec r issi) as [->|]; [|tauto]. rewrite I1, El.
           split; [intros (H1 & l2 & H & H2); injection H as <-; left; tauto|intros [[_ [H1 H2]]|[H _]]; [|easy]; split; [tauto|now exists l0]].
        -- intros r H. cbn [be_subs be_set_subs]. rewrite aget_aset. destruct (r =? issi); [discriminate|now apply K2].
      * injection E as <- _. split; [|exact K2]. intros r g. cbn [quits v_aff]. rewrite K1. split; [tauto|]. intros H. split; [|exact H]. intros [-> _].
        destruct H as (l & H & _). congruence.
Qed.
Lemma step_kept_reg i s s' o m : kept_reg m s -> (match i with InSubscriber _ r _ SubAffiliate => brew_issi_routable cfg r = true -> v_reg m r | _ => True end) ->
  be_step cfg lat i s = Ok (s', o) -> kept_reg (reported_after m i) s'.
Proof.
  intros K A E. pose proof (step_other _ _ _ _ E) as X.
  assert (Y : be_subs s' = be_subs s -> kept_reg m s') by (intros Es; unfold kept_reg; rewrite Es; exact K).
  destruct i; try (destruct X as [X1 X2]; exact (Y X1)).
  - destruct e; try (destruct X as [X1 X2]; exact (Y X1)). cbn [be_step be_event] in E. injection E as <- <-. exact K.
  - cbn [be_step] in E. injection E as E. unfold be_subscriber_update in E. cbv zeta in E. destruct action; cbn [reported_after].
    + injection E as <- _. intros r Hr H. cbn [registers v_reg]. destruct (aget issi (be_subs s)) eqn:El; [right; now apply K|]. cbn [be_subs be_set_subs] in H.
      rewrite aget_aset in H. destruct (N.eqb_spec r issi); [now left|right; now apply K].
    + injection E as <- _. intros r Hr H. cbn [leaves v_reg be_subs be_set_subs] in *. rewrite aget_adel in H. destruct (N.eqb_spec r issi); [easy|]. split; [easy|now apply K].
    + destruct (insert_groups groups _) as [l' new]. injection E as <- _. intros r Hr H. cbn [joins v_reg be_subs be_set_subs] in *. rewrite aget_aset in H.
      destruct (N.eqb_spec r issi) as [->|]; [now apply A|now apply K].
    + destruct (aget issi (be_subs s)) as [l0|] eqn:El; [|injection E as <- _; exact K]. destruct (remove_groups groups l0) as [l' gone]. injection E as <- _.
      intros r Hr H. cbn [quits v_reg be_subs be_set_subs] in *. rewrite aget_aset in H. destruct (N.eqb_spec r issi) as [->|]; [apply K; congruence|now apply K].
Qed.

(** ** Histories *)
Lemma run_kept_aff l : forall s s' o m, book_ok s -> Forall numbers_ok l -> kept_aff m s -> be_run cfg lat l s = Ok (s', o) ->
  book_ok s' /\ Forall cmd_ok (commands o) /\ kept_aff (fold_left reported_after l m) s'.
Proof.
  induction l as [|i t IH]; intros s s' o m B F K E; cbn [be_run] in E; [injection E as <- <-; cbn; auto|]. apply Forall_cons_iff in F. destruct F as [Fi Ft].
  destruct (be_step cfg lat i s) as [[s1 o1]| |] eqn:E1; cbn [bind] in E; try discriminate. destruct (be_run cfg lat t s1) as [[s2 o2]| |] eqn:E2; cbn [bind] in E; try discriminate.
  injection E as <- <-. destruct (step_ok _ _ _ _ B Fi E1) as [B1 C1]. destruct (IH _ _ _ _ B1 Ft (step_kept_aff _ _ _ _ _ K E1) E2) as (B2 & C2 & K2).
  split; [exact B2|]. split; [rewrite commands_app; now apply Forall_app|exact K2].
Qed.
Lemma run_aff l : forall s s' o v, book_ok s -> Forall numbers_ok l -> right_aff v s -> be_run cfg lat l s = Ok (s', o) -> right_aff (tells (commands o) v) s'.
Proof.
  induction l as [|i t IH]; intros s s' o v B F R E; cbn [be_run] in E; [now injection E as <- <-|]. apply Forall_cons_iff in F. destruct F as [Fi Ft].
  destruct (be_step cfg lat i s) as [[s1 o1]| |] eqn:E1; cbn [bind] in E; try discriminate. destruct (be_run cfg lat t s1) as [[s2 o2]| |] eqn:E2; cbn [bind] in E; try discriminate.
  injection E as <- <-. destruct (step_ok _ _ _ _ B Fi E1) as [B1 C1]. rewrite commands_app, tells_app. exact (IH _ _ _ _ B1 Ft (step_aff _ _ _ _ _ B R E1) E2).
Qed.
(** The registrations: the server's and the reported ones together *)
Lemma run_reg l : forall s s' o v m, book_ok s -> Forall numbers_ok l -> kept_aff m s -> kept_reg m s -> right_reg v s -> registered_first cfg m l -> be_run cfg lat l s = Ok (s', o) ->
  right_reg (tells (commands o) v) s' /\ kept_reg (fold_left reported_after l m) s'.
Proof.
  induction l as [|i t IH]; intros s s' o v m B F K KR R A E; cbn [be_run] in E; [now injection E as <- <-|]. apply Forall_cons_iff in F. destruct F as [Fi Ft]. destruct A as [Ai At].
  destruct (be_step cfg lat i s) as [[s1 o1]| |] eqn:E1; cbn [bind] in E; try discriminate. destruct (be_run cfg lat t s1) as [[s2 o2]| |] eqn:E2; cbn [bind] in E; try discriminate.
  injection E as <- <-. destruct (step_ok _ _ _ _ B Fi E1) as [B1 C1]. rewrite commands_app, tells_app.
  apply (IH _ _ _ _ _ B1 Ft (step_kept_aff _ _ _ _ _ K E1) (step_kept_reg _ _ _ _ _ KR Ai E1)); [|exact At|exact E2].
  apply (step_reg i s s1 o1 v B R); [|exact E1]. destruct i; try exact Logic.I. destruct action; try exact Logic.I. intros Hr. apply R. split; [exact Hr|]. destruct K as [_ K]. apply K. now apply Ai.
Qed.
Lemma kept_reg_run l : forall s s' o m, kept_reg m s -> registered_first cfg m l -> be_run cfg lat l s = Ok (s', o) -> kept_reg (fold_left reported_after l m) s'.
Proof.
  induction l as [|i t IH]; intros s s' o m KR A E; cbn [be_run] in E; [now injection E as <- <-|]. destruct A as [Ai At].
  destruct (be_step cfg lat i s) as [[s1 o1]| |] eqn:E1; cbn [bind] in E; try discriminate. destruct (be_run cfg lat t s1) as [[s2 o2]| |] eqn:E2; cbn [bind] in E; try discriminate.
  injection E as <- <-. exact (IH _ _ _ _ (step_kept_reg _ _ _ _ _ KR Ai E1) At E2).
Qed.
Lemma first_app l1 l2 m : registered_first cfg m (l1 ++ l2) -> registered_first cfg m l1 /\ registered_first cfg (fold_left reported_after l1 m) l2.
Proof. revert m. induction l1 as [|i t IH]; intros m; cbn [app registered_first fold_left]; [auto|]. intros [H1 H2]. apply IH in H2. tauto. Qed.

Lemma told_below v w c : below v w -> below (told v c) (told w c).
Proof. intros [H1 H2]. destruct c; cbn [told]; split; cbn; intros; firstorder. Qed.
Lemma tells_below cs : forall v w, below v w -> below (tells cs v) (tells cs w).
Proof. induction cs as [|c t IH]; intros v w H; [exact H|]. apply IH. now apply told_below. Qed.

Lemma start_ok : book_ok brew_new /\ kept_aff nobody brew_new /\ kept_reg nobody brew_new /\ right_aff nobody brew_new /\ right_reg nobody brew_new.
Proof.
  split; [split; [constructor|discriminate]|]. split; [split; [|intros r []]|split; [intros r _ H; now destruct H|split]].
  - intros r g. split; [intros []|]. intros (l & H & _). discriminate.
  - intros r g. split; [intros []|]. intros (_ & l & H & _). discriminate.
  - intros r. split; [intros []|]. intros [_ H]. now destruct H.
Qed.

Theorem network_view l1 reg hint hg jc l2 s1 o1 s2 o2 before pending w w' msgs :
  Forall numbers_ok (l1 ++ l2) ->
  be_run cfg lat l1 brew_new = Ok (s1, o1) -> be_run cfg lat (InEvent reg hint hg jc BeConnected :: l2) s1 = Ok (s2, o2) ->
  commands o1 = before ++ pending -> works cfg w (pending ++ commands o2) w' msgs ->
  (forall r g, v_aff (server msgs) r g <-> brew_issi_routable cfg r = true /\ v_aff (reported (l1 ++ l2)) r g) /\
  (registered_first cfg nobody (l1 ++ l2) -> forall r, v_reg (server msgs) r <-> brew_issi_routable cfg r = true /\ v_reg (reported (l1 ++ l2)) r).
Proof.
  intros F E1 E2 Ec Hw. apply Forall_app in F. destruct F as [F1 F2]. destruct start_ok as (B0 & KA0 & KR0 & RA0 & RR0).
  destruct (run_kept_aff _ _ _ _ _ B0 F1 KA0 E1) as (B1 & C1 & KA1).
  assert (F2' : Forall numbers_ok (InEvent reg hint hg jc BeConnected :: l2)) by (constructor; [exact Logic.I|exact F2]).
  destruct (run_kept_aff _ _ _ _ _ B1 F2' KA1 E2) as (B2 & C2 & KA2).
  assert (Er : reported (l1 ++ l2) = fold_left reported_after (InEvent reg hint hg jc BeConnected :: l2) (fold_left reported_after l1 nobody)).
  { unfold reported. rewrite fold_left_app. reflexivity. }
  assert (Cp : Forall cmd_ok pending) by (rewrite Ec in C1; now apply Forall_app in C1).
  assert (Es : server msgs = tells (commands o2) (tells pending nobody)).
  { unfold server. rewrite (works_told _ _ _ _ _ Hw), tells_app; [reflexivity|]. now apply Forall_app. }
  assert (Bl : below (tells pending nobody) (tells (commands o1) nobody)).
  { rewrite Ec, tells_app. apply tells_below. split; intros; contradiction. }
  (* what the connection itself brings *)
  cbn [be_run be_step be_event bind] in E2. destruct (be_run cfg lat l2 (be_set_connected true s1)) as [[s2' o2']| |] eqn:E2'; cbn [bind] in E2; try discriminate.
  injection E2 as <- <-. rewrite commands_app, tells_app in Es. change (book_ok (be_set_connected true s1)) with (book_ok s1) in *.
  assert (B1' : book_ok (be_set_connected true s1)) by exact B1.
  destruct (resync_spec hint hg (be_set_connected true s1) (tells pending nobody) B1') as [S1 S2].
  split.
  - assert (R : right_aff (tells (commands (be_resync cfg hint hg (be_set_connected true s1))) (tells pending nobody)) (be_set_connected true s1)).
    { intros r g. rewrite S1. split; [|auto]. intros [H|H]; [|exact H]. apply (proj2 Bl) in H. exact (proj1 (run_aff _ _ _ _ _ B0 F1 RA0 E1 r g) H). }
    pose proof (run_aff _ _ _ _ _ B1' F2 R E2') as R2. rewrite <- Es in R2. intros r g. rewrite (R2 r g), Er. now rewrite (proj1 KA2 r g).
  - intros A. apply first_app in A. destruct A as [A1 A2].
    destruct (run_reg _ _ _ _ _ _ B0 F1 KA0 KR0 RR0 A1 E1) as [RR1 KR1].
    assert (R : right_reg (tells (commands (be_resync cfg hint hg (be_set_connected true s1))) (tells pending nobody)) (be_set_connected true s1)).
    { intros r. rewrite S2. split; [|auto]. intros [H|H]; [|exact H]. apply (proj1 Bl) in H. exact (proj1 (RR1 r) H). }
    destruct (run_reg l2 (be_set_connected true s1) s2' o2' _ (fold_left reported_after l1 nobody) B1' F2 KA1 KR1 R A2 E2') as [R2 KR2].
    rewrite <- Es in R2. intros r. rewrite (R2 r), Er. split; intros [H1 H2]; (split; [exact H1|]); [exact (KR2 r H1 H2)|exact (proj2 KA2 r H2)].
Qed.
End Config.
