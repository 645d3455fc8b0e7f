(** Every call keeps the invariant of LlcProofs.v, hence every history. *)
From Coq Require Import ZArith Permutation.
From Verif Require Import Base BitsLib AMap TdmaTime TdmaTimeProofs TxReceipt BitBuffer BitBufferProofs BitBufferOps Codec CodecProofs
  MacFields Fcs FcsProofs LlcPdus LlcPdusProofs Llc LlcSpec LlcBits LlcProofs.
Open Scope nat_scope.

Section R.
Context {P : Type}.
Arguments g_time {_ _ _ _}. Arguments g_msgs {_ _ _ _}. Arguments g_nodup {_ _ _ _}. Arguments g_named {_ _ _ _}. Arguments g_free {_ _ _ _}.
Arguments g_given {_ _ _ _}. Arguments g_acks {_ _ _ _}. Arguments g_udata {_ _ _ _}. Arguments g_seq {_ _ _ _}.

Definition acks_of (s : llc P) : list (N * Z * bool) := map ack_key (ll_acks s).
Definition step_ok (named given : list N) (c : lcall P) (s : llc P) (ev : list (lev P)) (s' : llc P) : Prop :=
  good (item_named (LCall c) named) (given_after ev given) s' /\
  (forall ssi k, matches (ll_time s) (mine ssi (ll_out s)) k ->
     exists k', link_run ssi k (LCall c :: map LDid ev) = Some k' /\ matches (ll_time s') (mine ssi (ll_out s')) k' /\ (c = LTickEnd -> settled k')) /\
  Permutation (received [LCall c] ++ acks_of s) (piggybacked (map LDid ev) ++ standalone (map LDid ev) ++ acks_of s').
Lemma matches_owes now (l : list (lmsg P)) k : matches now l k -> lk_owes k = false.
Proof. intros (cur & rest & _ & ->). reflexivity. Qed.

Lemma step_tick_start named given t s : good named given s -> item_ok (P := P) named given (LCall (LTickStart t)) -> step_ok named given (LTickStart t) s [] (llc_tick_start t s).
Proof.
  intros G V. cbn [item_ok] in V. split; [|split].
  - destruct G. split; cbn [llc_tick_start ll_time ll_acks ll_out ll_udata ll_seq item_named given_after fold_left]; try assumption. now apply vtime_valid.
  - intros ssi k M. pose proof (matches_owes _ _ _ M) as O. cbn [map link_run link_step]. rewrite O. eexists. split; [reflexivity|]. split; [|discriminate].
    destruct M as (cur & rest & Sp & ->). exists cur, rest. split; [exact Sp|reflexivity].
  - reflexivity.
Qed.
Lemma step_tick_end named given s ev s' : good named given s -> llc_tick_end s = Ok (ev, s') -> step_ok named given LTickEnd s ev s'.
Proof.
  intros G E. destruct (tick_end_inv _ _ _ _ _ G E) as (H1 & H2 & H3 & H4 & H5). split; [exact H1|]. split.
  - intros ssi k M. pose proof (matches_owes _ _ _ M) as O. destruct (H2 ssi k M) as (k' & K1 & K2 & K3 & K4). exists k'. cbn [link_run link_step]. rewrite O. split; [exact K1|]. split; [exact K2|]. intros _. split; assumption.
  - unfold acks_of. rewrite H3, H4, H5. cbn [map received flat_map app]. now rewrite app_nil_r.
Qed.
Lemma matches_snoc now (l : list (lmsg P)) k m : matches now l k -> unsub m -> matches now (l ++ [m]) (mk_link now (lk_waiting k ++ [wait_of m]) (lk_current k) false).
Proof.
  intros (cur & rest & (S1 & S2 & S3) & ->) U. exists cur, (rest ++ [m]). split.
  - split; [|split; [|exact S3]].
    + rewrite S1. destruct cur; reflexivity.
    + apply Forall_app. split; [assumption|]. now constructor.
  - cbn [lk_waiting lk_current]. rewrite map_app. reflexivity.
Qed.
Lemma lxor1_bound v : (v < 2)%N -> (N.lxor v 1 < 2)%N.
Proof. intros H. destruct (bit_cases v H) as [-> | ->]; reflexivity. Qed.
Lemma step_data named given id rep q s ev s' : good named given s -> item_ok named given (LCall (LDataReq id rep q)) -> rx_tldata_req id rep q s = Ok (ev, s') ->
  step_ok named given (LDataReq id rep q) s ev s'.
Proof.
  intros G (I1 & -> & I3) E.
  destruct (data_req_eq _ _ id tx_new q s G I3) as [St|[Ty|(m & acks & E' & A1 & A2 & A3 & A4 & A5 & A6 & A7 & A8)]].
  { unfold rx_tldata_req in E. rewrite St in E. discriminate. }
  { unfold rx_tldata_req in E. rewrite Ty in E. destruct (lq_steal q); discriminate. }
  rewrite E' in E. injection E as <- <-. clear E'. pose proof (seq_bound _ _ _ (ad_ssi (lq_addr q)) G) as SB. cbv zeta in A8.
  set (ns := seq_of s (ad_ssi (lq_addr q))) in *. set (x := mk_lmsg id (lq_addr q) ns (lq_time q) None None tx_new m 0).
  assert (Mx : msg_ok x).
  { unfold msg_ok, x. cbn [lm_id lm_addr lm_ns lm_first lm_submitted lm_done lm_rep lm_buf lm_count tx_new tx_expects_ack tx_byte tx_raw].
    repeat (split; [first [assumption | lia | reflexivity | idtac]|]); try (split; reflexivity); try lia.
    unfold numbered. destruct A8 as [(nr & -> & _)|(-> & _)]; reflexivity. }
  assert (FI : forall y, In y (ll_out s) -> lm_id y <> id) by (intros y Y Q; apply I1; rewrite <- Q; apply (g_named G); now apply in_map).
  split; [|split].
  - split; cbn [ll_time ll_acks ll_out ll_udata ll_seq item_named]; rewrite ?map_app; cbn [map].
    + exact (g_time G).
    + apply Forall_app. split; [exact (g_msgs G)|now constructor].
    + change (lm_id x) with id. apply Permutation_NoDup with (l := id :: map lm_id (ll_out s)); [apply Permutation_cons_append|]. constructor; [|exact (g_nodup G)].
      intros X. apply I1. now apply (g_named G).
    + intros y Y. apply in_app_iff in Y. destruct Y as [Y|[<-|[]]]; [right; now apply (g_named G)|left; reflexivity].
    + intros y Y Uy X. cbn [given_after fold_left item_given] in X. apply in_app_iff in Y. destruct Y as [Y|[<-|[]]]; [exact (g_free G y Y Uy X)|]. apply I1. now apply (g_given G).
    + cbn [given_after fold_left item_given]. intros y Y. right. now apply (g_given G).
    + exact A7.
    + apply Forall_forall. intros y Y. destruct (proj1 (Forall_forall _ _) (g_udata G) y Y) as (Q1 & Q2). split; [exact Q1|]. intros i Hi. destruct (Q2 i Hi) as (Q3 & Q4). split; [now right|].
      rewrite map_app, in_app_iff. cbn [map In]. change (lm_id x) with id. intros [Z|[Z|[]]]; [contradiction|]. apply I1. congruence.
    + intros k v. rewrite aget_aset. destruct (k =? ad_ssi (lq_addr q))%N; [|apply (g_seq G)]. intros Z. injection Z as <-. now apply lxor1_bound.
  - intros ssi k M. pose proof (matches_owes _ _ _ M) as O. cbn [map link_run link_step]. rewrite O. cbn [link_call]. rewrite A1. cbn [ll_time ll_out]. rewrite mine_app. cbn [mine filter]. change (lm_addr x) with (lq_addr q).
    destruct (ad_ssi (lq_addr q) =? ssi)%N.
    + eexists. split; [reflexivity|]. split; [|discriminate]. rewrite O. pose proof (matches_snoc _ _ _ x M eq_refl) as MS. destruct M as (cur & rest & Sp & ->). exact MS.
    + exists k. split; [reflexivity|]. split; [|discriminate]. rewrite app_nil_r. exact M.
  - unfold acks_of. cbn [received flat_map app map piggybacked standalone ll_acks]. rewrite A1, A2.
    destruct A8 as [(nr & -> & Pm)|(-> & ->)]; cbn [app]; [exact Pm|reflexivity].
Qed.
Lemma step_udata named given q s s' : good named given s -> item_ok named given (LCall (LUnitdataReq q)) -> rx_tlunitdata_req q s = Ok s' -> step_ok named given (LUnitdataReq q) s [] s'.
Proof.
  intros G (I1 & I2) E. unfold rx_tlunitdata_req in E. destruct (llc_pdu_spec _ _ (lq_sdu q) (bu_bits false) I1) as (b & Eb & Wb & Vb). rewrite Eb in E. cbn [bind] in E. injection E as <-.
  assert (NI : incl named (item_named (LCall (LUnitdataReq q)) named)) by (intros x X; cbn [item_named]; destruct (lq_reporter q); [now right|assumption]).
  split; [|split].
  - split; cbn [ll_time ll_acks ll_out ll_udata ll_seq given_after fold_left].
    + exact (g_time G).
    + exact (g_msgs G).
    + exact (g_nodup G).
    + eapply incl_tran; [exact (g_named G)|exact NI].
    + exact (g_free G).
    + eapply incl_tran; [exact (g_given G)|exact NI].
    + exact (g_acks G).
    + apply Forall_app. split.
      * apply Forall_forall. intros y Y. destruct (proj1 (Forall_forall _ _) (g_udata G) y Y) as (Q1 & Q2). split; [exact Q1|]. intros i Hi. destruct (Q2 i Hi) as (Q3 & Q4). split; [now apply NI|assumption].
      * constructor; [|constructor]. split.
        -- unfold req_bits. cbn [tq_pdu]. rewrite Vb. do 2 eexists. reflexivity.
        -- cbn [tq_reporter item_named]. intros i Hi. rewrite Hi in *. split; [now left|]. intros X. apply I2. now apply (g_named G).
    + exact (g_seq G).
  - intros ssi k M. pose proof (matches_owes _ _ _ M) as O. cbn [map link_run link_step]. rewrite O. exists k. split; [reflexivity|]. split; [exact M|discriminate].
  - reflexivity.
Qed.

Lemma mark_all_facts id op (Q : op = MarkTransmitted \/ op = MarkDiscarded) : forall (l l' : list (lmsg P)), mark_all id op l = Ok l' ->
  Forall msg_ok l -> (forall m, In m l -> unsub m -> lm_id m <> id) ->
  Forall msg_ok l' /\ map lm_id l' = map lm_id l /\ (forall m, In m l' -> unsub m -> In m l).
Proof.
  induction l as [|m l IH]; intros l' E F U; [injection E as <-; repeat split; [constructor|intros ? []]|]. cbn [mark_all] in E.
  destruct (N.eqb_spec (lm_id m) id) as [Ei|Ei].
  - destruct (tx_apply op (lm_rep m)) as [r| |] eqn:T; cbn [bind] in E; try discriminate.
    destruct (mark_all id op l) as [l1| |]; cbn [bind] in E; try discriminate. injection E as <-.
    destruct (IH _ eq_refl (Forall_inv_tail F)) as (J1 & J2 & J3); [intros y Y; apply U; now right|].
    assert (Sm : lm_submitted m <> None) by (intros Z; exact (U m (or_introl eq_refl) Z Ei)).
    split; [|split; [cbn [map lm_id]; congruence|]].
    + constructor; [|assumption]. pose proof (Forall_inv F) as (M1 & M2 & M3 & M4 & M5 & M6 & M7 & M8 & M9).
      assert (TT : tx_byte (lm_rep m) = 0 /\ tx_expects_ack r = tx_expects_ack (lm_rep m) /\ tx_byte r <= 2 /\ tx_byte r <> 0).
      { destruct Q as [-> | ->]; cbn [tx_apply] in T; unfold tx_mark_transmitted, tx_mark_discarded, tx_mark in T; (destruct (Nat.eqb_spec (tx_byte (lm_rep m)) (tx_raw TxPending)) as [B|B]; [|discriminate]); injection T as <-; cbn; cbn in B; repeat split; (assumption || lia). }
      destruct TT as (T1 & T2 & T3 & T4).
      unfold msg_ok. cbn [lm_id lm_addr lm_ns lm_first lm_submitted lm_done lm_rep lm_buf lm_count]. repeat (split; [assumption || congruence|]). split.
      * destruct (lm_done m); [|exact I]. tauto.
      * destruct (lm_submitted m); [exact I|contradiction].
    + intros y [<-|Y] Uy; [contradiction|right; now apply J3].
  - cbn [bind] in E. destruct (mark_all id op l) as [l1| |]; cbn [bind] in E; try discriminate. injection E as <-.
    destruct (IH _ eq_refl (Forall_inv_tail F)) as (J1 & J2 & J3); [intros y Y; apply U; now right|].
    split; [constructor; [exact (Forall_inv F)|assumption]|]. split; [cbn [map]; congruence|]. intros y [<-|Y] Uy; [now left|right; now apply J3].
Qed.
Lemma mark_all_unsub id op : forall (l : list (lmsg P)), (forall m, In m l -> lm_id m <> id) -> mark_all id op l = Ok l.
Proof.
  induction l as [|m l IH]; intros U; [reflexivity|]. cbn [mark_all]. rewrite (proj2 (N.eqb_neq _ _) (U m (or_introl eq_refl))). cbn [bind]. rewrite IH; [reflexivity|]. intros y Y. apply U. now right.
Qed.
Lemma step_mark named given id op s s' : good named given s -> item_ok (P := P) named given (LCall (LUmacMark id op)) -> llc_umac_mark id op s = Ok s' -> step_ok named given (LUmacMark id op) s [] s'.
Proof.
  intros G (I1 & I2) E. unfold llc_umac_mark in E. destruct (mark_all id op (ll_out s)) as [l'| |] eqn:Em; cbn [bind] in E; try discriminate. injection E as <-.
  assert (UU : forall m, In m (ll_out s) -> unsub m -> lm_id m <> id) by (intros m M Um Z; apply (g_free G m M Um); now rewrite Z).
  destruct (mark_all_facts id op I2 _ _ Em (g_msgs G) UU) as (J1 & J2 & J3). split; [|split].
  - destruct G as [G1 G2 G3 G4 G5 G6 G7 G8 G9]. split; cbn [set_out ll_time ll_acks ll_out ll_udata ll_seq item_named given_after fold_left]; try assumption; try (rewrite J2; assumption).
    + intros m M Um. apply G5; auto.
    + apply Forall_forall. intros y Y. destruct (proj1 (Forall_forall _ _) G8 y Y) as (Q1 & Q2). split; [exact Q1|]. now rewrite J2.
  - intros ssi k M. pose proof (matches_owes _ _ _ M) as O. cbn [map link_run link_step]. rewrite O. eexists. split; [reflexivity|]. split; [|discriminate].
    apply (mark_all_mine ssi) in Em. cbn [set_out ll_time ll_out]. destruct M as (cur & rest & (S1 & S2 & S3) & ->). rewrite S1 in Em.
    assert (Ur : forall m, In m rest -> lm_id m <> id).
    { intros m Hm. apply UU; [|exact (proj1 (Forall_forall _ _) S2 m Hm)]. assert (In m (mine ssi (ll_out s))) as X by (rewrite S1; destruct cur; [now right|assumption]). apply filter_In in X. tauto. }
    destruct cur as [m|]; cbn [mark_all] in Em; rewrite (mark_all_unsub id op rest Ur) in Em.
    + destruct (N.eqb_spec (lm_id m) id) as [Ei|Ei].
      * destruct (tx_apply op (lm_rep m)) as [r| |] eqn:T; cbn [bind] in Em; try discriminate. injection Em as <-.
        eexists (Some _), rest. split; [split; [reflexivity|split; [assumption|exact S3]]|].
        cbn [link_call lk_now lk_waiting lk_current option_map]. do 2 f_equal. unfold reported, os_of. cbn [os_id os_bits os_count os_done lm_id lm_buf lm_count lm_rep lm_done]. rewrite Ei, N.eqb_refl. f_equal.
        destruct I2 as [-> | ->]; cbn [tx_apply] in T; unfold tx_mark_transmitted, tx_mark_discarded, tx_mark in T; (destruct (tx_byte (lm_rep m) =? tx_raw TxPending); [|discriminate]); injection T as <-; reflexivity.
      * cbn [bind] in Em. injection Em as <-. exists (Some m), rest. split; [split; [reflexivity|split; assumption]|].
        cbn [link_call lk_now lk_waiting lk_current option_map]. do 2 f_equal. unfold reported. cbn [os_id os_of]. now rewrite (proj2 (N.eqb_neq _ _) Ei).
    + injection Em as <-. exists None, rest. split; [split; [reflexivity|split; assumption]|]. reflexivity.
  - reflexivity.
Qed.
Lemma take_split ssi (l : list (lmsg P)) cur rest : split_ok (mine ssi l) cur rest ->
  match cur with Some m => exists r, take_expected ssi l = Some (m, r) /\ mine ssi r = rest | None => take_expected ssi l = None end.
Proof.
  intros (S1 & S2 & S3). pose proof (take_expected_mine ssi ssi l) as T. rewrite N.eqb_refl in T.
  assert (A : Forall (fun m => ad_ssi (lm_addr m) = ssi) (mine ssi l)) by (apply Forall_forall; intros x X; apply filter_In in X; now apply N.eqb_eq).
  destruct cur as [m|].
  - rewrite S1 in T, A. cbn [take_expected] in T. rewrite (Forall_inv A), N.eqb_refl in T. destruct (lm_submitted m); [|contradiction]. cbn [andb] in T.
    destruct (take_expected ssi l) as [[m' r]|]; [|discriminate]. injection T as T1 T2. exists r. split; congruence.
  - rewrite S1 in T. assert (N0 : take_expected ssi rest = None).
    { clear T S1 A. induction S2 as [|x rest Ux Fx IH]; [reflexivity|]. cbn [take_expected]. unfold unsub in Ux. rewrite Ux, Bool.andb_false_r, IH. reflexivity. }
    rewrite N0 in T. destruct (take_expected ssi l) as [[m' r]|]; [discriminate|reflexivity].
Qed.
Lemma good_out named given (s : llc P) l' : good named given s -> NoDup (map lm_id l') -> incl l' (ll_out s) -> good named given (set_out s l').
Proof.
  intros [G1 G2 G3 G4 G5 G6 G7 G8 G9] ND I. split; cbn [set_out ll_time ll_acks ll_out ll_udata ll_seq]; try assumption.
  - apply Forall_forall. intros x X. exact (proj1 (Forall_forall _ _) G2 x (I x X)).
  - intros x X. apply G4. apply in_map_iff in X. destruct X as (y & <- & Y). apply in_map. auto.
  - intros m M. apply G5. auto.
  - apply Forall_forall. intros x X. destruct (proj1 (Forall_forall _ _) G8 x X) as (Q1 & Q2). split; [exact Q1|]. intros i Hi. destruct (Q2 i Hi) as (Q3 & Q4). split; [assumption|].
    intros Z. apply Q4. apply in_map_iff in Z. destruct Z as (y & <- & Y). apply in_map. auto.
Qed.
Lemma take_front_in ssi (l : list (lmsg P)) m rest : take_expected ssi l = Some (m, rest) -> incl (m :: rest) l /\ (NoDup (map lm_id l) -> NoDup (map lm_id (m :: rest))) /\ ad_ssi (lm_addr m) = ssi.
Proof.
  intros T. destruct (take_expected_split _ _ _ _ T) as (a & b & -> & -> & Q & _). split; [|split; [|exact Q]].
  - intros x [<-|X]; apply in_app_iff; cbn [In]; [tauto|]. apply in_app_iff in X. tauto.
  - apply Permutation_NoDup. apply Permutation_map. symmetry. apply Permutation_middle.
Qed.
Lemma ack_in named given a n (s : llc P) ev s' : good named given s -> process_incoming_ack a (N.b2n n) s = Ok (ev, s') ->
  good named (given_after ev given) s' /\ ll_time s' = ll_time s /\ ll_acks s' = ll_acks s /\
  (forall ssi cur rest, split_ok (mine ssi (ll_out s)) cur rest ->
     (let k := mk_link (ll_time s) (map wait_of rest) (option_map os_of cur)
                ((ad_ssi a =? ssi)%N && match option_map os_of cur with Some o => settles (Some n) o | None => false end) in
      exists k', link_run ssi k (map LDid ev) = Some k' /\ matches (ll_time s) (mine ssi (ll_out s')) k')) /\
  piggybacked (map LDid ev) = [] /\ standalone (map LDid ev) = [].
Proof.
  intros G E. unfold process_incoming_ack in E.
  destruct (take_expected (ad_ssi a) (ll_out s)) as [[m r]|] eqn:T.
  2:{ injection E as <- <-. split; [exact G|]. repeat (split; [reflexivity|]). split; [|split; reflexivity]. intros ssi cur rest Sp. cbv zeta. eexists. split; [reflexivity|]. exists cur, rest. split; [exact Sp|]. f_equal.
      destruct (N.eqb_spec (ad_ssi a) ssi) as [Q|Q]; [|reflexivity]. rewrite Q in T. pose proof (take_split _ _ _ _ Sp) as TS. destruct cur; [|reflexivity]. destruct TS as (? & TS & _). congruence. }
  destruct (take_front_in _ _ _ _ T) as (F1 & F2 & F3).
  pose proof (take_expected_in _ _ _ _ T) as (F4 & F5).
  pose proof (proj1 (Forall_forall _ _) (g_msgs G) m (F1 m (or_introl eq_refl))) as (M1 & M2 & M3 & M4 & M5 & M6 & M7 & M8 & M9).
  (* the message stays *)
  assert (Stay : (forall cur rest, split_ok (mine (ad_ssi a) (ll_out s)) cur rest -> match option_map os_of cur with Some o => settles (Some n) o | None => false end = false) ->
    ev = [] -> s' = set_out s (m :: r) ->
    good named (given_after ev given) s' /\ ll_time s' = ll_time s /\ ll_acks s' = ll_acks s /\
    (forall ssi cur rest, split_ok (mine ssi (ll_out s)) cur rest ->
     (let k := mk_link (ll_time s) (map wait_of rest) (option_map os_of cur)
                ((ad_ssi a =? ssi)%N && match option_map os_of cur with Some o => settles (Some n) o | None => false end) in
      exists k', link_run ssi k (map LDid ev) = Some k' /\ matches (ll_time s) (mine ssi (ll_out s')) k')) /\
    piggybacked (map LDid ev) = [] /\ standalone (map LDid ev) = []).
  { intros NS -> ->. split; [apply good_out; auto; apply F2; exact (g_nodup G)|]. repeat (split; [reflexivity|]). split; [|split; reflexivity].
    intros ssi cur rest Sp. cbv zeta. eexists. split; [reflexivity|]. exists cur, rest. cbn [set_out ll_out]. destruct (N.eqb_spec (ad_ssi a) ssi) as [Q|Q].
    - split; [|f_equal; rewrite <- Q in Sp; rewrite (NS _ _ Sp); reflexivity]. pose proof (take_split _ _ _ _ Sp) as TS. rewrite <- Q in TS, Sp |- *. destruct cur as [m0|]; [|congruence].
      destruct TS as (r0 & TS & Mr). rewrite T in TS. injection TS as <- <-. cbn [mine filter]. rewrite F3, N.eqb_refl. fold (mine (ad_ssi a) r). rewrite Mr. destruct Sp as (S1 & S2 & S3). split; [reflexivity|]. split; assumption.
    - split; [|reflexivity]. destruct (take_expected_split _ _ _ _ T) as (l1 & l2 & El & Er & _). cbn [mine filter]. rewrite (proj2 (N.eqb_neq _ _)) by congruence. fold (mine ssi r).
      rewrite El in Sp. rewrite mine_out in Sp by congruence. rewrite <- Er in Sp. exact Sp. }
  destruct (lm_done m) as [d|] eqn:D.
  - destruct (N.eqb_spec (lm_ns m) (N.b2n n)) as [Q|Q].
    + destruct (tx_mark_acknowledged (lm_rep m)) as [rp| |]; cbn [bind] in E; try discriminate. injection E as <- <-. split; [|split; [reflexivity|split; [reflexivity|split; [|split; reflexivity]]]].
      * cbn [given_after fold_left item_given]. apply good_out; auto. apply F5. exact (g_nodup G).
      * intros ssi cur rest Sp. cbv zeta. cbn [set_out ll_out map link_run link_step]. rewrite F3. destruct (N.eqb_spec (ad_ssi a) ssi) as [Es|Es].
        -- pose proof (take_split _ _ _ _ Sp) as TS. rewrite Es in T. destruct cur as [m0|]; [|congruence]. destruct TS as (r0 & TS & Mr). rewrite T in TS. injection TS as <- <-.
           cbn [option_map lk_current lk_owes]. change (os_id (os_of m)) with (lm_id m). rewrite N.eqb_refl. cbn [andb].
           assert (St : settles (Some n) (os_of m) = true).
           { unfold settles, os_of. cbn [os_bits os_done]. rewrite M3, D, Q. destruct n; reflexivity. }
           rewrite St. eexists. split; [reflexivity|]. cbn [lk_now lk_waiting]. exists None, rest. split; [|reflexivity]. destruct Sp as (S1 & S2 & S3). split; [exact Mr|]. split; [assumption|exact I].
        -- cbn [andb]. eexists. split; [reflexivity|]. exists cur, rest. split; [|reflexivity]. destruct (take_expected_split _ _ _ _ T) as (l1 & l2 & El & Er & _).
           rewrite El in Sp. rewrite mine_out in Sp by congruence. rewrite <- Er in Sp. exact Sp.
    + injection E as <- <-. apply Stay; [|reflexivity|reflexivity]. intros cur rest Sp. pose proof (take_split _ _ _ _ Sp) as TS. destruct cur as [m0|]; [|reflexivity]. destruct TS as (r0 & TS & _). rewrite T in TS. injection TS as <- <-.
      cbn [option_map]. unfold settles, os_of. cbn [os_bits os_done]. rewrite M3, D. destruct (bit_cases (lm_ns m) M4) as [Z|Z]; rewrite Z in *; destruct n; try reflexivity; exfalso; apply Q; reflexivity.
  - injection E as <- <-. apply Stay; [|reflexivity|reflexivity]. intros cur rest Sp. pose proof (take_split _ _ _ _ Sp) as TS. destruct cur as [m0|]; [|reflexivity]. destruct TS as (r0 & TS & _). rewrite T in TS. injection TS as <- <-.
    cbn [option_map]. unfold settles, os_of. cbn [os_bits os_done]. rewrite M3, D. reflexivity.
Qed.
Lemma mle_ignored ssi k ev (i : tla_ind) : link_run (P := P) ssi k (map LDid (ev ++ [LToMle i])) = link_run ssi k (map LDid ev).
Proof. rewrite map_app, link_run_app. destruct (link_run ssi k (map LDid ev)); reflexivity. Qed.
Lemma given_mle ev (i : tla_ind) g : given_after (P := P) (ev ++ [LToMle i]) g = given_after ev g.
Proof. unfold given_after. rewrite fold_left_app. reflexivity. Qed.
Lemma step_mle named given c s ev s' (i : tla_ind) : step_ok named given c s ev s' -> step_ok named given c s (ev ++ [LToMle i]) s'.
Proof.
  intros (H1 & H2 & H3). split; [|split].
  - rewrite given_mle. exact H1.
  - intros ssi k M. destruct (H2 ssi k M) as (k' & K1 & K2). exists k'. split; [|exact K2]. cbn [link_run] in *. destruct (link_step ssi k (LCall c)); [|exact K1]. now rewrite mle_ignored.
  - unfold piggybacked, standalone in *. rewrite map_app, !flat_map_app. cbn [map flat_map app]. rewrite !app_nil_r. exact H3.
Qed.
Lemma step_ind named given t a pdu (s : llc P) ev s' : good named given s -> item_ok (P := P) named given (LCall (LInd t a pdu)) -> rx_unitdata_ind t a pdu s = Ok (ev, s') -> step_ok named given (LInd t a pdu) s ev s'.
Proof.
  intros G (I1 & I2) E. destruct pdu as [b|]; [|discriminate]. pose proof (ind_spec t a b s I2) as H. destruct (ind_panics (remaining b)); [congruence|].
  destruct (bl_accept (remaining b)) as [p|] eqn:Ac.
  2:{ rewrite E in H. injection H as -> ->. split; [exact G|]. split.
      - intros ssi k M. pose proof (matches_owes _ _ _ M) as O. cbn [map link_run link_step]. rewrite O. eexists. split; [reflexivity|]. split; [|discriminate].
        destruct M as (cur & rest & Sp & ->). exists cur, rest. split; [exact Sp|]. cbn [link_call lk_now lk_waiting lk_current ind_pdu]. rewrite Ac. f_equal. destruct cur; cbn [option_map settles]; apply Bool.andb_false_r.
      - cbn [received flat_map ind_pdu map piggybacked standalone app]. rewrite Ac. reflexivity. }
  destruct (ind_effect t a p s) as [[ev0 s0]|e|] eqn:Ef; [|destruct H|congruence].
  assert (Main : step_ok named given (LInd t a (Some b)) s ev0 s0).
  { clear H. unfold ind_effect in Ef. set (s1 := match send_number p with Some n => schedule_outgoing_ack t a (N.b2n n) s | None => s end) in *.
    assert (G1 : good named given s1).
    { unfold s1. destruct (send_number p) as [n|]; [|exact G]. destruct G as [G1 G2 G3 G4 G5 G6 G7 G8 G9]. split; cbn [schedule_outgoing_ack set_acks ll_time ll_acks ll_out ll_udata ll_seq]; try assumption.
      apply Forall_app. split; [assumption|]. constructor; [|constructor]. split; cbn [oa_nr oa_start]; [destruct n; reflexivity|]. apply vtime_valid in I1. unfold vtime in I1. lia. }
    assert (O1 : ll_out s1 = ll_out s /\ ll_time s1 = ll_time s) by (unfold s1; destruct (send_number p); split; reflexivity). destruct O1 as (O1 & O2).
    assert (R1 : acks_of s1 = acks_of s ++ received [LCall (P := P) (LInd t a (Some b))]).
    { unfold acks_of. cbn [received flat_map ind_pdu]. rewrite Ac, app_nil_r. unfold s1. destruct (send_number p) as [n|]; [|now rewrite app_nil_r]. cbn [schedule_outgoing_ack set_acks ll_acks]. rewrite map_app. cbn [map ack_key]. unfold ack_key. cbn [oa_addr oa_start oa_nr]. destruct n; reflexivity. }
    destruct (acked_number p) as [n|] eqn:An.
    - destruct (ack_in _ _ _ _ _ _ _ G1 Ef) as (H1 & H2 & H3 & H4 & H5 & H6). split; [exact H1|]. split.
      + intros ssi k M. pose proof (matches_owes _ _ _ M) as O. cbn [link_run link_step]. rewrite O. destruct M as (cur & rest & Sp & ->). cbn [link_call lk_now lk_waiting lk_current ind_pdu]. rewrite Ac, An.
        rewrite <- O1 in Sp. destruct (H4 ssi cur rest Sp) as (k' & K1 & K2). rewrite O2 in K1. exists k'. split; [exact K1|]. split; [|discriminate]. rewrite H2. exact K2.
      + rewrite H5, H6. cbn [app]. unfold acks_of at 2. rewrite H3. fold (acks_of s1). rewrite R1. apply Permutation_app_comm.
    - injection Ef as <- <-. split; [exact G1|]. split.
      + intros ssi k M. pose proof (matches_owes _ _ _ M) as O. cbn [map link_run link_step]. rewrite O. eexists. split; [reflexivity|]. split; [|discriminate]. rewrite O1, O2.
        destruct M as (cur & rest & Sp & ->). exists cur, rest. split; [exact Sp|]. cbn [link_call lk_now lk_waiting lk_current ind_pdu]. rewrite Ac, An. f_equal. destruct cur; cbn [option_map settles]; apply Bool.andb_false_r.
      + cbn [map piggybacked standalone flat_map app]. rewrite R1. apply Permutation_app_comm. }
  destruct (is_ack p).
  - rewrite E in H. injection H as -> ->. exact Main.
  - destruct H as (i & H & _). rewrite E in H. injection H as -> ->. now apply step_mle.
Qed.

(** ** Histories *)
Lemma step_all named given c (s : llc P) ev s' : good named given s -> item_ok named given (LCall c) -> llc_step c s = Ok (ev, s') -> step_ok named given c s ev s'.
Proof.
  intros G I E. destruct c as [t| |id rep q|q|t a pdu|id op]; cbn [llc_step] in E.
  - injection E as <- <-. now apply step_tick_start.
  - now apply step_tick_end.
  - now apply step_data.
  - destruct (rx_tlunitdata_req q s) as [s1| |] eqn:E1; cbn [bind] in E; try discriminate. injection E as <- <-. now apply step_udata.
  - now apply step_ind.
  - destruct (llc_umac_mark id op s) as [s1| |] eqn:E1; cbn [bind] in E; try discriminate. injection E as <- <-. now apply step_mark.
Qed.
Lemma log_ok_did named : forall ev given t, log_ok (P := P) named given (map LDid ev ++ t) <-> log_ok named (given_after ev given) t.
Proof.
  induction ev as [|e ev IH]; intros given t; [reflexivity|]. cbn [map app log_ok item_named given_after fold_left]. fold (given_after ev (item_given (LDid e) given)). rewrite <- IH. cbn [item_ok]. tauto.
Qed.
Definition named_after (log : list (litem P)) (n : list N) : list N := fold_left (fun n i => item_named i n) log n.
Definition given_log (log : list (litem P)) (g : list N) : list N := fold_left (fun g i => item_given i g) log g.
Lemma given_log_did ev g : given_log (map LDid ev) g = given_after ev g.
Proof. unfold given_log, given_after. revert g. induction ev as [|e ev IH]; intros g; [reflexivity|]. cbn [map fold_left]. apply IH. Qed.
Lemma named_did ev n : named_after (map LDid ev) n = n.
Proof. unfold named_after. revert n. induction ev as [|e ev IH]; intros n; [reflexivity|]. cbn [map fold_left item_named]. apply IH. Qed.
Lemma run_all : forall l named given s log s', good named given s -> llc_run l s = Ok (log, s') -> log_ok named given log ->
  good (named_after log named) (given_log log given) s' /\
  (forall ssi k, matches (ll_time s) (mine ssi (ll_out s)) k -> exists k', link_run ssi k log = Some k' /\ matches (ll_time s') (mine ssi (ll_out s')) k') /\
  Permutation (received log ++ acks_of s) (piggybacked log ++ standalone log ++ acks_of s').
Proof.
  induction l as [|c l IH]; intros named given s log s' G E O.
  - injection E as <- <-. split; [exact G|]. split; [|reflexivity]. intros ssi k M. exists k. split; [reflexivity|exact M].
  - cbn [llc_run] in E. destruct (llc_step c s) as [[ev s1]| |] eqn:E1; cbn [bind] in E; try discriminate.
    destruct (llc_run l s1) as [[lg s2]| |] eqn:E2; cbn [bind] in E; try discriminate. injection E as <- <-.
    cbn [log_ok] in O. destruct O as (O1 & O2). change (item_given (LCall c) given) with given in O2. rewrite log_ok_did in O2.
    destruct (step_all _ _ _ _ _ _ G O1 E1) as (S1 & S2 & S3). destruct (IH _ _ _ _ _ S1 E2 O2) as (J1 & J2 & J3).
    split; [|split].
    + change (LCall c :: map LDid ev ++ lg) with ([LCall c] ++ map LDid ev ++ lg). unfold named_after, given_log in *. rewrite !fold_left_app. cbn [fold_left].
      change (item_given (LCall c) given) with given. fold (given_log (map LDid ev) given). rewrite given_log_did. fold (named_after (map LDid ev) (item_named (LCall c) named)). rewrite named_did. exact J1.
    + intros ssi k M. destruct (S2 ssi k M) as (k1 & K1 & K2 & _). destruct (J2 ssi k1 K2) as (k2 & K3 & K4). exists k2. split; [|exact K4].
      change (LCall c :: map LDid ev ++ lg) with ((LCall c :: map LDid ev) ++ lg). rewrite link_run_app, K1. exact K3.
    + change (LCall c :: map LDid ev ++ lg) with ([LCall c] ++ map LDid ev ++ lg). 
      assert (R0 : received (map LDid ev) = []) by (clear; induction ev; [reflexivity|assumption]).
      assert (Q0 : piggybacked [LCall c] = [] /\ standalone [LCall c] = []) by (split; reflexivity). destruct Q0 as (Q0 & Q1).
      unfold received, piggybacked, standalone in *. rewrite !flat_map_app. rewrite R0, Q0, Q1. cbn [app].
      rewrite <- app_assoc. rewrite (Permutation_app_comm (flat_map _ lg) (acks_of s)), app_assoc. rewrite S3. rewrite <- !app_assoc.
      rewrite (Permutation_app_comm (acks_of s1) (flat_map _ lg)), J3.
      set (A := flat_map _ (map LDid ev)). set (B := flat_map _ (map LDid ev)). set (C := flat_map _ lg). set (D := flat_map _ lg).
      apply Permutation_app_head. rewrite !app_assoc. apply Permutation_app_tail. apply Permutation_app_tail. apply Permutation_app_comm.
Qed.

(** The sequence numbers. *)
Lemma seq_step c (s : llc P) ev s' named given ssi : good named given s -> item_ok named given (LCall c) -> llc_step c s = Ok (ev, s') ->
  match data_reqs ssi [LCall c] with
  | [] => queued ssi (map LDid ev) = [] /\ seq_of s' ssi = seq_of s ssi
  | (id, q) :: r => r = [] /\ exists m, queued ssi (map LDid ev) = [(id, m)] /\ seq_of s' ssi = N.lxor (seq_of s ssi) 1 /\
      tq_addr m = lq_addr q /\ tq_time m = lq_time q /\ tq_chan m = lq_chan q /\ tq_info m = lq_info q /\
      exists p, bl_parse (req_bits m) = Some p /\ send_number p = Some (seq_of s ssi =? 1)%N /\ sdu_of p = remaining (lq_sdu q)
  end.
Proof.
  intros G I E. destruct c as [t| |id rep q|q|t a pdu|id op]; cbn [llc_step] in E; cbn [data_reqs flat_map app].
  - injection E as <- <-. split; reflexivity.
  - unfold llc_tick_end, submit_retransmissions, submit_free_messages, submit_ack_replies in E.
    destruct (retransmit_stage (ll_time s) (g_time G) (ll_out s) (g_msgs G)) as (e1 & l1 & r & E1 & S1). rewrite E1 in E. cbn [bind] in E.
    destruct (remove_lost r l1) as [[e2 l2]| |] eqn:E2; cbn [bind] in E; try discriminate. destruct (remove_lost_stage _ _ _ _ E2) as (R1 & R2 & R3 & R4). cbn [set_out ll_time ll_out] in E.
    assert (F2 : Forall msg_ok l2) by (apply Forall_forall; intros x X; exact (proj1 (Forall_forall _ _) (proj1 S1) x (R1 x X))).
    destruct (free_stage (ll_time s) l2 [] F2) as (e3 & l3 & E3 & S3). rewrite E3 in E. cbn [bind set_out ll_time ll_acks] in E.
    destruct (acks_spec (P := P) (ll_time s) (ll_acks s) (g_acks G)) as (e4 & E4 & A1 & A2 & A3 & A4). rewrite E4 in E. cbn [bind] in E.
    cbn [submit_udata set_acks set_out ll_time ll_acks ll_out ll_udata ll_seq] in E. injection E as <- <-. split; [|reflexivity].
    assert (D0 : forall x, Forall data_ev x -> queued ssi (map (LDid (P := P)) x) = []).
    { intros x. induction 1 as [|e x X Fx IH]; [reflexivity|]. cbn [map queued flat_map]. unfold queued in IH. rewrite IH. destruct e; try reflexivity. destruct X. }
    assert (P0 : forall x, Forall plain_ev x -> queued ssi (map (LDid (P := P)) x) = []).
    { intros x. induction 1 as [|e x X Fx IH]; [reflexivity|]. cbn [map queued flat_map]. unfold queued in IH. rewrite IH. destruct e; try reflexivity. destruct X. }
    destruct (udata_evs _ _ _ (g_udata G)) as (U1 & _). unfold queued in *. rewrite !map_app, !flat_map_app. rewrite (D0 e1), (D0 e2), (D0 e3), (P0 e4), (P0 _ U1) by (assumption || apply S1 || apply S3). reflexivity.
  - destruct I as (I1 & -> & I3). destruct (data_req_eq _ _ id tx_new q s G I3) as [St|[Ty|(m & acks & E' & A1 & A2 & A3 & A4 & A5 & A6 & A7 & A8)]].
    { unfold rx_tldata_req in E. rewrite St in E. discriminate. }
    { unfold rx_tldata_req in E. rewrite Ty in E. destruct (lq_steal q); discriminate. }
    rewrite E' in E. injection E as <- <-. unfold queued. cbn [map flat_map]. rewrite A1. unfold seq_of. cbn [ll_seq]. rewrite aget_aset. rewrite (N.eqb_sym ssi). destruct (N.eqb_spec (ad_ssi (lq_addr q)) ssi) as [Q|Q].
    + cbn [app]. split; [reflexivity|]. exists m. split; [reflexivity|]. fold (seq_of s (ad_ssi (lq_addr q))). fold (seq_of s ssi). rewrite Q in *. repeat (split; [first [reflexivity|assumption]|]).
      cbv zeta in A8. destruct A8 as [(nr & -> & _)|(-> & _)]; eexists; (split; [reflexivity|]); split; reflexivity.
    + cbn [app]. split; reflexivity.
  - destruct (rx_tlunitdata_req q s) as [s1| |] eqn:E1; cbn [bind] in E; try discriminate. injection E as <- <-. split; [reflexivity|].
    unfold rx_tlunitdata_req in E1. destruct (llc_pdu _ _); cbn [bind] in E1; try discriminate. injection E1 as <-. reflexivity.
  - destruct pdu as [b|]; [|discriminate]. destruct I as (I1 & I2). pose proof (ind_spec t a b s I2) as H. destruct (ind_panics (remaining b)); [congruence|].
    destruct (bl_accept (remaining b)) as [p|].
    2:{ rewrite E in H. injection H as -> ->. split; reflexivity. }
    destruct (ind_effect t a p s) as [[ev0 s0]|e|] eqn:Ef; [|destruct H|congruence].
    assert (X : queued ssi (map LDid ev0) = [] /\ seq_of s0 ssi = seq_of s ssi).
    { unfold ind_effect in Ef. set (s1 := match send_number p with Some n => schedule_outgoing_ack t a (N.b2n n) s | None => s end) in *.
      assert (Q : ll_seq s1 = ll_seq s) by (unfold s1; destruct (send_number p); reflexivity). unfold seq_of. rewrite <- Q. clearbody s1.
      destruct (acked_number p) as [n|]; [|injection Ef as <- <-; split; reflexivity]. unfold process_incoming_ack in Ef.
      destruct (take_expected (ad_ssi a) (ll_out s1)) as [[m r]|]; [|injection Ef as <- <-; split; reflexivity].
      destruct (lm_done m); [|injection Ef as <- <-; split; reflexivity]. destruct (lm_ns m =? N.b2n n)%N; [|injection Ef as <- <-; split; reflexivity].
      destruct (tx_mark_acknowledged (lm_rep m)); cbn [bind] in Ef; try discriminate. injection Ef as <- <-; split; reflexivity. }
    destruct (is_ack p).
    + rewrite E in H. injection H as -> ->. exact X.
    + destruct H as (i & H & _). rewrite E in H. injection H as -> ->. destruct X as (X1 & X2). split; [|exact X2]. unfold queued in *. rewrite map_app, flat_map_app. rewrite X1. reflexivity.
  - destruct (llc_umac_mark id op s) as [s1| |] eqn:E1; cbn [bind] in E; try discriminate. injection E as <- <-. split; [reflexivity|].
    unfold llc_umac_mark in E1. destruct (mark_all id op (ll_out s)); cbn [bind] in E1; try discriminate. injection E1 as <-. reflexivity.
Qed.
End R.
