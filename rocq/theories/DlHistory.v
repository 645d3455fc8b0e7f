(** The downlink scheduler: histories. *)
From Coq Require Import Arith Permutation.
From Verif Require Import Base BitsLib BitBuffer BitBufferProofs BitBufferOps Codec CodecProofs MacFields MacPdus MacBroadcast Layout LayoutProofs
  MacSpec MacPdusProofs FillBits BsFrag FragSpec FillProofs FragProofs TxReceipt TdmaTime TdmaTimeProofs UmacCircuits UmacCircuitsProofs UlSched LlcBits
  DlSched DlSchedSpec DlChunk DlBuild DlNotes DlSlot DlFinal.
Open Scope nat_scope.

Definition idle (es : list entry) : Prop := Forall (fun e => en_going e = false) es.
Lemma idle_filter es : idle es -> filter en_going es = [].
Proof. induction 1 as [|e es H F IH]; [reflexivity|]. cbn [filter]. now rewrite H. Qed.
Lemma filter_idle es : filter en_going es = [] -> idle es.
Proof. induction es as [|e es IH]; [constructor|]. cbn [filter]. destruct (en_going e) eqn:E; [discriminate|]. intros H. constructor; auto. now apply IH. Qed.
Lemma full_idle p p' es : idle es -> map (full p) es = map (full p') es.
Proof. induction 1 as [|e es H F IH]; [reflexivity|]. cbn [map]. rewrite IH. unfold full. now rewrite H. Qed.
Lemma going_only A e es x : filter en_going (A ++ e :: es) = [x] -> en_going e = true -> e = x /\ idle A /\ idle es.
Proof.
  rewrite filter_app. cbn [filter]. intros H G. rewrite G in H. destruct (filter en_going A) as [|y l] eqn:EA.
  - cbn [app] in H. injection H as H1 H2. split; [assumption|]. split; apply filter_idle; assumption.
  - exfalso. cbn [app] in H. injection H as _ H. destruct l; discriminate.
Qed.
Lemma in_step_none es : in_step None es <-> idle es.
Proof. unfold in_step. split; [destruct (filter en_going es) eqn:E; [intros _; now apply filter_idle|contradiction]|]. intros H. now rewrite idle_filter. Qed.

Definition fine (msgs : list (mac_resource * list bool)) (es : list entry) (e : ear) : Prop :=
  match e with Garbled => False | Mixed => True | Clear got part => in_step part es /\ Permutation msgs (got ++ map (full part) es) end.

Lemma mixed_stays is : fold_left hear_item is Mixed = Mixed.
Proof. induction is; [reflexivity|]. cbn [fold_left hear_item]. assumption. Qed.
Lemma hear_whole got part h d : hear_item (Clear got part) (IWhole h d) = Clear (got ++ [(h, d)]) part.
Proof. destruct part as [[? ?]|]; reflexivity. Qed.
Lemma served_fine msgs es is es' m : served_all es is es' m -> forall A e, fine msgs (A ++ es) e -> fine msgs (A ++ es') (fold_left hear_item is e).
Proof.
  induction 1 as [|e0 es is i es' e' m m' S SA IH]; intros A e F; [exact F|].
  rewrite fold_left_app, app_assoc. apply IH. clear IH SA. rewrite <- app_assoc.
  destruct e as [got part| |]; [|cbn; rewrite mixed_stays; exact Logic.I|cbn [fine] in F; contradiction].
  destruct F as (IS & P). inversion S; subst; clear S; cbn [fold_left app].
  - split; assumption.
  - rewrite hear_whole. cbn [app] in *. rewrite map_app in P. cbn [map full] in P. split.
    + unfold in_step in *. rewrite filter_app in *. cbn [filter en_going] in IS. exact IS.
    + rewrite P, map_app. cbn [full en_hdr en_going en_bits app]. rewrite <- app_assoc. cbn [app]. apply Permutation_app_head. apply Permutation_sym, Permutation_middle.
  - destruct part as [[h0 a]|]; [exact Logic.I|]. apply in_step_none in IS. apply Forall_app in IS. destruct IS as (IA & IS). inversion IS as [|? ? G IE]; subst.
    split.
    + unfold in_step. rewrite filter_app. cbn [filter en_going]. rewrite (idle_filter A IA), (idle_filter es IE). cbn [app en_hdr]. assumption.
    + rewrite P, !map_app. cbn [map]. rewrite (full_idle None (Some (header h, d)) A IA), (full_idle None (Some (header h, d)) es IE).
      assert (FE : full None (mk_en false h (d ++ d') r) = full (Some (header h, d)) (mk_en true h' d' r)).
      { unfold full. cbn [en_hdr en_going en_bits app]. match goal with X : header _ = header h |- _ => rewrite X end. reflexivity. }
      rewrite FE. reflexivity.
  - unfold in_step in IS. destruct part as [[h0 a]|]; [|rewrite filter_app in IS; cbn [filter en_going] in IS; destruct (filter en_going A); contradiction].
    destruct (filter en_going (A ++ mk_en true h (d ++ d') r :: es)) as [|x [|? ?]] eqn:EF; try contradiction.
    destruct (going_only _ _ _ _ EF eq_refl) as (<- & IA & IE). cbn [en_hdr] in IS. subst h0. split.
    + unfold in_step. rewrite filter_app. cbn [filter en_going]. rewrite (idle_filter A IA), (idle_filter es IE). cbn [app en_hdr]. reflexivity.
    + rewrite P, !map_app. cbn [map]. rewrite (full_idle (Some (header h, a)) (Some (header h, a ++ d)) A IA), (full_idle (Some (header h, a)) (Some (header h, a ++ d)) es IE).
      assert (FE : full (Some (header h, a)) (mk_en true h (d ++ d') r) = full (Some (header h, a ++ d)) (mk_en true h d' r)).
      { unfold full. cbn [en_hdr en_going en_bits]. now rewrite <- app_assoc. }
      rewrite FE. reflexivity.
  - unfold in_step in IS. destruct part as [[h0 a]|]; [|rewrite filter_app in IS; cbn [filter en_going] in IS; destruct (filter en_going A); contradiction].
    destruct (filter en_going (A ++ mk_en true h d r :: es)) as [|x [|? ?]] eqn:EF; try contradiction.
    destruct (going_only _ _ _ _ EF eq_refl) as (<- & IA & IE). cbn [en_hdr] in IS. subst h0. split.
    + apply in_step_none. apply Forall_app. split; assumption.
    + rewrite P, !map_app. cbn [map]. rewrite (full_idle (Some (header h, a)) None A IA), (full_idle (Some (header h, a)) None es IE).
      change (full (Some (header h, a)) (mk_en true h d r)) with (header h, a ++ d). rewrite <- app_assoc. cbn [app]. apply Permutation_app_head. apply Permutation_sym, Permutation_middle.
Qed.

(** In turn. *)
Definition ord (part : option (mac_resource * list bool)) (es : list entry) : Prop :=
  match es with
  | [] => part = None
  | e :: t => idle t /\ match part with Some (h, _) => en_going e = true /\ header (en_hdr e) = h | None => en_going e = false end
  end.
Lemma turn_ord es is es' : in_turn es is es' -> forall got part, ord part es ->
  exists got' part', fold_left hear_item is (Clear got part) = Clear got' part' /\ ord part' es' /\ got ++ map (full part) es = got' ++ map (full part') es'.
Proof.
  induction 1 as [es|e es i e' S G|e es i is es' m S T IH]; intros got part O.
  - exists got, part. auto.
  - destruct O as (IE & O). cbn [fold_left]. inversion S; subst; try discriminate.
    + destruct part as [[h0 a]|]; [destruct O; discriminate|]. cbn [hear_item]. exists got, (Some (header h, d)). split; [reflexivity|].
      split; [split; [assumption|]; split; [reflexivity|assumption]|]. cbn [map]. rewrite (full_idle None (Some (header h, d)) es IE). f_equal. f_equal.
      unfold full. cbn [en_hdr en_going en_bits app]. match goal with X : header _ = header h |- _ => rewrite X end. reflexivity.
    + destruct part as [[h0 a]|]; [|discriminate]. destruct O as (_ & O). cbn [en_hdr] in O. subst h0. cbn [hear_item]. exists got, (Some (header h, a ++ d)). split; [reflexivity|].
      split; [split; [assumption|]; split; reflexivity|]. cbn [map]. rewrite (full_idle (Some (header h, a)) (Some (header h, a ++ d)) es IE). f_equal. f_equal.
      unfold full. cbn [en_hdr en_going en_bits]. now rewrite <- app_assoc.
  - destruct O as (IE & O).
    assert (ON : ord None es) by (destruct es; [reflexivity|inversion IE; subst; split; assumption]).
    inversion S; subst.
    + destruct part as [[h0 a]|]; [destruct O; discriminate|]. cbn [fold_left hear_item].
      destruct (IH (got ++ [(header h, d)]) None ON) as (g & p & E & O2 & Q). exists g, p. split; [assumption|]. split; [assumption|]. rewrite <- Q, <- app_assoc. reflexivity.
    + destruct part as [[h0 a]|]; [|discriminate]. destruct O as (_ & O). cbn [en_hdr] in O. subst h0. cbn [fold_left hear_item].
      destruct (IH (got ++ [(header h, a ++ d)]) None ON) as (g & p & E & O2 & Q). exists g, p. split; [assumption|]. split; [assumption|]. rewrite <- Q, <- app_assoc. cbn [map app].
      rewrite (full_idle (Some (header h, a)) None es IE). reflexivity.
Qed.

(** The invariant. *)
Definition Q (k : nat) (s : dls) (d : desk) (q : list dl_elem) : Prop :=
  four s /\ ds_next s = [] /\ get_q k s = Ok q /\ Forall legal q /\ Forall2 sim (filter is_resource q) (dk_fresh d) /\ flat_map notes_of q = dk_notes d.
Definition InvP (k : nat) (s : dls) (d : desk) (e : ear) : Prop := exists q, Q k s d q /\ fine (map message (dk_firm d)) (entries (filter is_frag q)) e.
Definition ordered (msgs : list (mac_resource * list bool)) (es : list entry) (e : ear) : Prop :=
  exists got part, e = Clear got part /\ ord part es /\ msgs = got ++ map (full part) es.
Definition InvO (k : nat) (s : dls) (d : desk) (e : ear) : Prop := exists q, Q k s d q /\ ordered (map message (dk_firm d)) (entries (filter is_frag q)) e.

Lemma sim_full part l w : Forall2 sim l w -> map (full part) (entries l) = map message w /\ idle (entries l).
Proof.
  induction 1 as [|e w l ws S F (IH & ID)]; [split; [reflexivity|constructor]|]. destruct e as [|a|a g|p sdu rep|f|b rep]; try contradiction.
  destruct S as (S1 & S2 & S3). change (entries (DlResource p sdu rep :: l)) with (mk_en false p (remaining sdu) rep :: entries l).
  split; [|constructor; [reflexivity|assumption]]. cbn [map]. rewrite IH. f_equal. unfold full, message. cbn [en_hdr en_going en_bits app]. congruence.
Qed.
Lemma entries_app a b : entries (a ++ b) = entries a ++ entries b.
Proof. apply flat_map_app. Qed.
Lemma frags_all q : all_frags q -> filter is_frag q = q /\ filter is_resource q = [] /\ flat_map notes_of q = [].
Proof. induction 1 as [|e q (f & -> & _) F (A & B & C)]; [auto|]. cbn [filter is_frag is_resource flat_map notes_of app]. now rewrite A, B, C. Qed.
Lemma busy_no_notes q : forallb busy q = true -> flat_map notes_of q = [].
Proof. induction q as [|e q IH]; [reflexivity|]. cbn [forallb flat_map]. intros H. apply andb_prop in H. destruct H as (A & B). rewrite (IH B). destruct e; (reflexivity || discriminate). Qed.

(** One tick of the own timeslot, in terms of the desk and the radio. *)
Lemma desk_tick k d ev slot m : match ev with DvResource _ _ _ _ | DvGrant _ _ _ | DvAck _ _ => False | _ => True end ->
  desk_step k d (ev, Some slot, m) =
    if for_ts k (sl_ts slot) && negb (is_traffic slot) then
      let fresh := fold_left (fun l n => attach n l) (dk_notes d) (dk_fresh d) in
      if (tm_f (sl_ts slot) =? 18)%Z then mk_desk (dk_firm d) fresh [] else mk_desk (dk_firm d ++ fresh) [] []
    else d.
Proof. intros H. destruct ev; try contradiction; reflexivity. Qed.

Lemma hear_slot_items e l is : slot_items l = Some is -> e <> Garbled -> fold_left hear_slot [l] e = fold_left hear_item is e.
Proof. intros H N0. cbn [fold_left]. unfold hear_slot. destruct e; [now rewrite H| |congruence]. now rewrite mixed_stays. Qed.
Lemma fine_not_garbled msgs es e : fine msgs es e -> e <> Garbled.
Proof. intros H ->. exact H. Qed.

Lemma own_tick k q fresh m slot q2 o d e :
  did q fresh m slot q2 o -> for_ts k (sl_ts slot) = true -> dk_fresh d = fresh -> flat_map notes_of q = dk_notes d ->
  Forall2 sim (filter is_resource q) fresh ->
  forall ev, match ev with DvResource _ _ _ _ | DvGrant _ _ _ | DvAck _ _ => False | _ => True end ->
  let d' := desk_step k d (ev, Some slot, m) in let e' := fold_left hear_slot (air_slot k (ev, Some slot, m)) e in
  Forall2 sim (filter is_resource q2) (dk_fresh d') /\ flat_map notes_of q2 = dk_notes d' /\
  (fine (map message (dk_firm d)) (entries (filter is_frag q)) e -> fine (map message (dk_firm d')) (entries (filter is_frag q2)) e') /\
  (forall h, 32 <= h -> Forall (fun w => width (mr_layout (w_hdr w)) = h) (dk_firm d') ->
     ordered (map message (dk_firm d)) (entries (filter is_frag q)) e -> ordered (map message (dk_firm d')) (entries (filter is_frag q2)) e').
Proof.
  intros D FT EF EN SM ev HE. cbv zeta. rewrite desk_tick by assumption. unfold air_slot. cbn [fst snd]. rewrite FT. cbn [andb].
  destruct D as [T ->|q1 T F18 -> -> B1 L1 G1 S1 CB|q1 is T F18 B1 L1 G1 S1 AF SV PR BLK TU].
  - rewrite T. cbn [negb]. assert (A : match bk_chan (sl_blk1 slot) with CSchF | CSchHd => [window (bk_buf (sl_blk1 slot))] | _ => [] end = []).
    { unfold is_traffic in T. destruct (bk_chan (sl_blk1 slot)); try discriminate; reflexivity. }
    rewrite A. cbn [fold_left]. rewrite EF. auto.
  - rewrite T. cbn [negb]. rewrite F18. change (18 =? 18)%Z with true. cbn [dk_fresh dk_firm dk_notes]. rewrite CB. cbn [fold_left].
    rewrite EF, <- EN, G1, (busy_no_notes q1 B1). auto.
  - rewrite T. cbn [negb]. destruct (Z.eqb_spec (tm_f (sl_ts slot)) 18); [congruence|]. cbn [dk_fresh dk_firm dk_notes].
    destruct (frags_all q2 AF) as (A1 & A2 & A3). rewrite A1, A2, A3. split; [constructor|]. split; [reflexivity|].
    rewrite EF, <- EN. set (fr := fold_left _ _ fresh) in *.
    assert (AIR : forall ee, ee <> Garbled -> fold_left hear_slot match bk_chan (sl_blk1 slot) with CSchF | CSchHd => [window (bk_buf (sl_blk1 slot))] | _ => [] end ee = fold_left hear_item is ee).
    { intros ee NG. destruct BLK as [(BL & E1)|([(BL & _)|(BL & _)] & BI)].
      - rewrite BL. rewrite E1 in SV. cbn in SV. inversion SV; subst. reflexivity.
      - rewrite BL. now apply hear_slot_items.
      - rewrite BL. now apply hear_slot_items. }
    assert (EL : entries (line q1) = entries (filter is_frag q) ++ entries (filter is_resource q1)) by (unfold line; rewrite entries_app, G1; reflexivity).
    split.
    + intros F. rewrite (AIR e (fine_not_garbled _ _ _ F)). rewrite EL in SV. apply (served_fine _ _ _ _ _ SV [] e). cbn [app].
      destruct e as [got part| |]; [|exact Logic.I|cbn [fine] in F; contradiction]. destruct F as (IS & P). destruct (sim_full part _ _ S1) as (M & ID).
      split.
      * unfold in_step in *. rewrite filter_app, (idle_filter _ ID), app_nil_r. exact IS.
      * rewrite !map_app, M, app_assoc. now apply Permutation_app_tail.
    + intros h H32 HW (got & part & -> & OR & EM). rewrite AIR by discriminate.
      destruct (sim_full part _ _ S1) as (M & ID).
      assert (EM2 : map message (dk_firm d ++ fr) = got ++ map (full part) (entries (line q1))).
      { rewrite EL, !map_app, M, EM, app_assoc. reflexivity. }
      assert (WID : Forall (fun e => hw e = h) (entries (line q1))).
      { apply Forall_forall. intros x IX.
        assert (IM : In (full part x) (map message (dk_firm d ++ fr))) by (rewrite EM2; apply in_or_app; right; now apply in_map).
        apply in_map_iff in IM. destruct IM as (w & EW & IW). rewrite Forall_forall in HW. specialize (HW w IW).
        apply (f_equal fst) in EW. cbn [message full fst] in EW. unfold hw. rewrite <- (header_width _ _ EW). exact HW. }
      assert (OR2 : ord part (entries (line q1))).
      { rewrite EL. destruct (entries (filter is_frag q)) as [|x t].
        - cbn [app ord] in *. subst part. destruct (entries (filter is_resource q1)) as [|y t]; [reflexivity|]. inversion ID; subst. split; assumption.
        - cbn [app ord] in *. destruct OR as (O1 & O2). split; [apply Forall_app; split; assumption|assumption]. }
      specialize (TU h H32 WID). assert (IT : in_turn (entries (line q1)) is (entries q2)).
      { apply TU. destruct (entries (line q1)); [exact Logic.I|]. apply OR2. }
      destruct (turn_ord _ _ _ IT got part OR2) as (g & p & E1 & E2 & E3). exists g, p. split; [assumption|]. split; [assumption|]. rewrite EM2. exact E3.
Qed.
