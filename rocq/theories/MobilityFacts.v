(** Mobility management: the theorems of C34 and C55. *)
From Verif Require Import Base BitsLib AMap AMapOrder AMapOrderProofs TdmaTime MacFields MmFields MmPdus MmSpec MmFieldsProofs MmProofs MmFacts BrewRoute Registry RegistrySpec RegistryProofs
  CallControl CcSpec CcProofs CcHistory CcFacts CcKeeps Mobility MobilitySpec MobilityProofs
  BitBuffer BitBufferProofs BitBufferOps Codec CodecProofs TypedFields PduSpec PduProofs CmceFields ReaderGives.
Open Scope N_scope.

(** ** Agreement *)
Lemma mm_known_view m i : mm_known m i <-> mmv m i <> None.
Proof. unfold mm_known, mmv. destruct (aget i (mo_clients m)); cbn; split; congruence. Qed.
Lemma mm_attached_view m i g : mm_attached m i g <-> exists a, mmv m i = Some a /\ a g = true.
Proof.
  unfold mm_attached, mmv. split.
  - intros (c & E & H). rewrite E. exists (fun x => memN x (cl_groups c)). split; [reflexivity|now apply memN_true].
  - intros (a & E & H). destruct (aget i (mo_clients m)) as [c|]; [|discriminate E]. injection E as <-. exists c. split; [reflexivity|now apply memN_true].
Qed.
Lemma list_known_view (m : amap (list N)) i : aget i m <> None <-> lview m i <> None.
Proof. unfold lview. destruct (aget i m); cbn; split; congruence. Qed.
Lemma list_attached_view (m : amap (list N)) i g : (exists l, aget i m = Some l /\ In g l) <-> exists a, lview m i = Some a /\ a g = true.
Proof.
  unfold lview. split.
  - intros (c & E & H). rewrite E. exists (fun x => memN x c). split; [reflexivity|now apply memN_true].
  - intros (a & E & H). destruct (aget i m) as [c|]; [|discriminate E]. injection E as <-. exists c. split; [reflexivity|now apply memN_true].
Qed.
Lemma same_known v w i : same v w -> (v i <> None <-> w i <> None).
Proof. intros H. specialize (H i). destruct (v i), (w i); cbn in H; split; try congruence; destruct H. Qed.
Lemma same_attached v w i g : same v w -> ((exists a, v i = Some a /\ a g = true) <-> exists a, w i = Some a /\ a g = true).
Proof.
  intros H. specialize (H i). unfold oeq in H. destruct (v i) as [a|], (w i) as [b|]; [|destruct H|destruct H|].
  - split; intros (x & [= <-] & Q); [exists b|exists a]; (split; [reflexivity|]); rewrite <- Q; [symmetry|]; apply H.
  - split; intros (x & Q & _); discriminate Q.
Qed.

Lemma registry_in_step : forall cfg y, runs_to cfg (fun _ => True) y -> registry_agrees (sy_mob y).
Proof.
  intros cfg y R. destruct (runs_together _ _ _ R) as [[(h & K & M & G) V] _ _]. constructor.
  - intros i. rewrite mm_known_view, <- (same_known _ _ i V). unfold regv. rewrite <- list_known_view. unfold reg_known, reg_is_registered.
    destruct (aget i _); split; congruence.
  - intros i g. rewrite mm_attached_view, <- (same_attached _ _ i g V). unfold regv, reg_attached. now rewrite <- list_attached_view.
  - intros g. rewrite G. split; intros (i & H).
    + exists i. rewrite mm_attached_view, <- (same_attached _ _ i g V). unfold regv. rewrite <- list_attached_view.
      specialize (M i). destruct (aget i (rg_subs (mo_reg (sy_mob y)))) as [gs|]; [|destruct M as [_ M]; rewrite M in H; discriminate H].
      exists gs. split; [reflexivity|]. apply has_in. destruct M as [_ M]. now rewrite M.
    + exists i. rewrite mm_attached_view, <- (same_attached _ _ i g V) in H. unfold regv in H. rewrite <- list_attached_view in H. destruct H as (l & E & H).
      specialize (M i). rewrite E in M. destruct M as [_ M]. rewrite <- M. now apply has_in.
Qed.

Lemma calls_in_step : forall cfg m c, runs_to cfg orderly_request (mk_sys m c []) -> calls_agree m c.
Proof.
  intros cfg m c R. destruct (runs_together _ _ _ R) as [_ C F]. cbn [sy_mob sy_cc sy_pending follow fold_left] in *. specialize (F (fun i H => H)).
  assert (A : forall i g, mm_attached m i g <-> cc_attached c i g).
  { intros i g. rewrite mm_attached_view, <- (same_attached _ _ i g F). unfold ccv, cc_attached. now rewrite <- list_attached_view. }
  constructor; [|exact A|].
  - intros i. rewrite mm_known_view, <- (same_known _ _ i F). unfold ccv, cc_known. now rewrite <- list_known_view.
  - intros g. rewrite <- (listened_has [] c g (W_reachable cfg c C)). unfold listened. split.
    + intros (i & l & E & H). exists i. apply A. now exists l.
    + intros (i & H). apply A in H. destruct H as (l & E & H). now exists i, l.
Qed.

(** ** What the network is told *)
Definition told (cfg : cfg_route) (q : list mm_msg) : Prop :=
  to_network q = flat_map (fun u => match routed cfg u with Some v => [v] | None => [] end) (to_cmce q).
Lemma told_app cfg q q' : told cfg q -> told cfg q' -> told cfg (q ++ q').
Proof. unfold told. intros H H'. now rewrite to_network_app, to_cmce_app, flat_map_app, H, H'. Qed.
Lemma told_nil cfg : told cfg [].
Proof. reflexivity. Qed.
Lemma told_mle cfg t h a p : told cfg [MmToMle t h a p].
Proof. reflexivity. Qed.
Lemma told_emit cfg t i gs a : told cfg (emit_update cfg t i gs a).
Proof.
  unfold told. rewrite emit_cmce. cbn [flat_map]. rewrite app_nil_r. unfold emit_update, routed. rewrite to_network_app. cbn [su_issi su_groups su_action].
  destruct (brew_is_active cfg); cbn [negb]; [|reflexivity]. cbn zeta.
  destruct a; [destruct (brew_issi_routable cfg i); reflexivity|destruct (brew_issi_routable cfg i); reflexivity|destruct (filter _ gs); reflexivity|destruct (filter _ gs); reflexivity].
Qed.
Lemma told_nonempty cfg t i gs a : told cfg (emit_nonempty cfg t i gs a).
Proof. unfold emit_nonempty. destruct gs; [apply told_nil|apply told_emit]. Qed.
Lemma told_groups cfg t i l s s' acc q : attach_groups cfg t i l s = (s', acc, q) -> told cfg q.
Proof. unfold attach_groups. destruct (attach_loop i l s) as [[[s1 acc1] aff] deaff]. intros [= <- <- <-]. apply told_app; apply told_nonempty. Qed.
Lemma network_told : forall cfg hint i s s' q, mm_rx cfg hint i s = Ok (s', q) ->
  to_network q = flat_map (fun u => match routed cfg u with Some v => [v] | None => [] end) (to_cmce q).
Proof.
  intros cfg hint i s s' q. change (mm_rx cfg hint i s = Ok (s', q) -> told cfg q). unfold mm_rx.
  destruct (peek_bits (di_sdu i) 4) as [[t|]| |]; cbn [bind]; [|intros [= <- <-]; apply told_nil|discriminate..].
  unfold mm_parsed.
  destruct (t =? MmUl_UItsiDetach).
  { destruct (u_itsi_detach_from_bitbuf (di_sdu i)) as [[p b]| |]; [|intros [= <- <-]; apply told_nil|discriminate].
    unfold rx_u_itsi_detach. destruct (aget _ _); intros [= <- <-]; [|apply told_nil]. apply told_app; [apply told_nonempty|apply told_emit]. }
  destruct (t =? MmUl_ULocationUpdateDemand).
  { destruct (u_lu_demand_from_bitbuf (di_sdu i)) as [[p b]| |] eqn:E; [|intros [= <- <-]; apply told_nil|discriminate].
    unfold rx_u_lu_demand. destruct (lu_supported p); cbn [negb]; [|intros [= <- <-]; apply told_nil].
    set (issi := ad_ssi (di_addr i)). set (t0 := di_dltime i). set (first := if negb (client_is_known issi s) then _ else _).
    assert (F : match first with Some (s1, q1) => told cfg q1 | None => True end).
    { unfold first. destruct (negb (client_is_known issi s)); [apply told_emit|]. destruct (set_client_state issi ClAttached s); [apply told_nil|exact Logic.I]. }
    destruct first as [[s1 q1]|]; [|intros [= <- <-]; apply told_nil].
    set (second := match u_lu_demand_group_identity_location_demand p with Some d => _ | None => _ end).
    assert (G : let '(s2, _, q2) := second in told cfg q2).
    { unfold second. destruct (u_lu_demand_group_identity_location_demand p) as [d|]; [|apply told_nil].
      destruct (gild_uplink d) as [l|]; [|apply told_nil]. destruct (attach_groups cfg t0 issi l s1) as [[s2 acc] q2] eqn:E2. exact (told_groups _ _ _ _ _ _ _ _ E2). }
    destruct second as [[s2 g] q2]. intros H.
    destruct (mm_encode 34 _) as [[]| |]; [|discriminate H..]. cbn [bind] in H.
    destruct (if negb (client_is_known issi s) && negb (u_lu_demand_location_update_type p =? 3) then _ else _) as [c| |] eqn:EC; [|discriminate H..].
    cbn [bind] in H. injection H as <- <-. apply told_app; [exact F|]. apply told_app; [exact G|].
    destruct (negb (client_is_known issi s) && negb (u_lu_demand_location_update_type p =? 3)).
    - destruct (lu_command_msg t0 issi (di_handle i)) as [m| |] eqn:EM; [|discriminate EC..]. cbn [bind] in EC. injection EC as <-.
      unfold lu_command_msg in EM. destruct (mm_encode 16 _) as [[]| |]; [|discriminate EM..]. cbn [bind] in EM. injection EM as <-. reflexivity.
    - injection EC as <-. reflexivity. }
  destruct (t =? MmUl_UMmStatus).
  { destruct (u_mm_status_from_bitbuf (di_sdu i)) as [[p b]| |] eqn:E; [|intros [= <- <-]; apply told_nil|discriminate].
    unfold rx_u_mm_status. destruct (mm_encode 14 _) as [[]| |]; cbn [bind]; [|discriminate..]. intros [= <- <-]. reflexivity. }
  destruct (t =? MmUl_UAttachDetachGroupIdentity).
  { destruct (u_attach_detach_from_bitbuf (di_sdu i)) as [[p b]| |] eqn:E; [|intros [= <- <-]; apply told_nil|discriminate].
    unfold rx_u_attach_detach. destruct (u_attach_detach_group_identity_uplink p) as [l|]; [|intros [= <- <-]; apply told_nil].
    set (issi := ad_ssi (di_addr i)). set (t0 := di_dltime i). set (first := if u_attach_detach_group_identity_attach_detach_mode p then _ else _).
    assert (F : match first with Some (s1, q1) => told cfg q1 | None => True end).
    { unfold first. destruct (u_attach_detach_group_identity_attach_detach_mode p); [|apply told_nil].
      destruct (negb (client_is_known issi s)); [apply told_emit|]. unfold drop_groups. destruct (client_detach_all issi s); [apply told_nonempty|exact Logic.I]. }
    destruct first as [[s1 q1]|]; [|intros [= <- <-]; apply told_nil].
    destruct (attach_groups cfg t0 issi l s1) as [[s2 acc] q2] eqn:E2. intros H.
    destruct (mm_encode 32 _) as [[]| |]; [|discriminate H..]. cbn [bind] in H. injection H as <- <-.
    apply told_app; [exact F|]. apply told_app; [exact (told_groups _ _ _ _ _ _ _ _ E2)|reflexivity]. }
  intros [= <- <-]. apply told_nil.
Qed.

(** ** The answers can be written *)
Definition giu_small (u : giu) : Prop :=
  match giu_class_of_usage u with Some c => c < 8 | None => True end /\ match giu_detachment u with Some d => d < 4 | None => True end /\
  match giu_gssi u with Some g => g < 16777216 | None => True end.
Lemma giu_gives : gives giu_small giu_from_bitbuf.
Proof.
  unfold giu_from_bitbuf. eapply gives_bind; [apply (gives_field 1); lia|]. intros t _.
  eapply gives_bind; [apply gives_ropt, (gives_field 3); lia|]. intros c Hc. eapply gives_bind; [apply gives_ropt, (gives_field 2); lia|]. intros d Hd.
  eapply gives_bind; [apply (gives_field 2); lia|]. intros a _. eapply gives_bind; [apply gives_ropt, (gives_field 24); lia|]. intros g Hg.
  eapply gives_bind; [apply gives_ropt, (gives_field 24); lia|]. intros e _. eapply gives_bind; [apply gives_ropt, (gives_field 24); lia|]. intros v _.
  apply gives_ret. split; [exact Hc|]. split; [exact Hd|exact Hg].
Qed.
Definition list_small (l : list giu) : Prop := Forall giu_small l /\ (length l < 64)%nat.
Lemma gild_gives : gives (fun d => match gild_uplink d with Some l => list_small l | None => True end) gild_from_bitbuf.
Proof.
  unfold gild_from_bitbuf. eapply gives_bind; [apply (gives_field 1); lia|]. intros r _. eapply gives_bind; [apply gives_guard|]. intros _ _.
  eapply gives_bind; [apply (gives_field 1); lia|]. intros m _. eapply gives_bind; [apply gives_flag|]. intros o _.
  eapply gives_bind; [apply gives_type4_struct, giu_gives|]. intros l Hl. eapply gives_bind; [apply gives_trailing|]. intros _ _. now apply gives_ret.
Qed.
Definition lu_small (p : u_lu_demand) : Prop :=
  u_lu_demand_location_update_type p < 8 /\ match lu_groups p with Some l => list_small l | None => True end.
Lemma lu_gives : gives lu_small u_lu_demand_from_bitbuf.
Proof.
  unfold u_lu_demand_from_bitbuf. eapply gives_bind; [apply (gives_field 4); lia|]. intros t _. eapply gives_bind; [apply gives_guard|]. intros _ _.
  eapply gives_bind; [apply (gives_field 3); lia|]. intros ty Hty. eapply gives_bind; [apply gives_flag|]. intros x1 _. eapply gives_bind; [apply gives_flag|]. intros x2 _.
  eapply gives_bind; [apply gives_ropt, (gives_field 10); lia|]. intros x3 _. eapply gives_bind; [apply gives_flag|]. intros o _.
  eapply gives_bind; [apply gives_type2_generic; lia|]. intros x4 _. eapply gives_bind; [apply gives_type2_generic; lia|]. intros x5 _.
  eapply gives_bind; [apply gives_type2_generic; lia|]. intros x6 _. cbv zeta. eapply gives_bind; [apply gives_type2_generic; lia|]. intros x7 _.
  eapply gives_bind; [apply gives_type2_generic; lia|]. intros x8 _.
  eapply gives_bind; [apply gives_type3_struct, gild_gives|]. intros d Hd.
  eapply gives_bind; [apply gives_type3_generic|]. intros x9 _. eapply gives_bind; [apply gives_type3_generic|]. intros x10 _.
  eapply gives_bind; [apply gives_type3_generic|]. intros x11 _. eapply gives_bind; [apply gives_type3_generic|]. intros x12 _.
  eapply gives_bind; [apply gives_trailing|]. intros _ _. apply gives_ret. split; [exact Hty|]. unfold lu_groups.
  cbn [u_lu_demand_group_identity_location_demand]. destruct d as [d|]; [exact Hd|exact Logic.I].
Qed.
Lemma attach_gives : gives (fun p => match u_attach_detach_group_identity_uplink p with Some l => list_small l | None => True end) u_attach_detach_from_bitbuf.
Proof.
  unfold u_attach_detach_from_bitbuf. eapply gives_bind; [apply (gives_field 4); lia|]. intros t _. eapply gives_bind; [apply gives_guard|]. intros _ _.
  eapply gives_bind; [apply gives_flag|]. intros x1 _. eapply gives_bind; [apply gives_flag|]. intros x2 _. eapply gives_bind; [apply gives_flag|]. intros o _.
  eapply gives_bind; [apply gives_type3_generic|]. intros x3 _. eapply gives_bind; [apply gives_type4_struct, giu_gives|]. intros l Hl.
  eapply gives_bind; [apply gives_type3_generic|]. intros x4 _. eapply gives_bind; [apply gives_trailing|]. intros _ _. now apply gives_ret.
Qed.

Lemma answer_valid u : giu_small u -> forallb gid_valid (answer_to u) = true /\ (length (answer_to u) <= 1)%nat /\ (length (flat_map gid_bits (answer_to u)) <= 32)%nat.
Proof.
  intros (C & D & G). unfold answer_to. destruct (plain u) as [g|] eqn:P; [|repeat split; cbn; lia]. pose proof (plain_gssi u g P) as Q. rewrite Q in G.
  assert (FG : fit 24 g = true) by (apply N.ltb_lt; exact G).
  destruct (giu_detachment u) as [d|].
  - assert (FD : fit 2 d = true) by (apply N.ltb_lt; exact D). split; [|split; [cbn; lia|]].
    + cbn [forallb]. unfold gid_valid. cbn [gid_attachment gid_detachment gid_gssi gid_address_extension gid_vgssi some fits_with fito xorb address_type andb]. now rewrite FG, FD.
    + cbn [flat_map]. rewrite app_nil_r. unfold gid_bits, address_bits. cbn [gid_attachment gid_detachment gid_gssi gid_address_extension gid_vgssi some address_type cond].
      rewrite !app_length, ?bits_of_length. unfold num, flag. cbn [length app]. rewrite ?bits_of_length. cbn; lia.
  - set (c := match giu_class_of_usage u with Some c => c | None => 0 end). assert (FC : fit 3 c = true).
    { apply N.ltb_lt. unfold c. destruct (giu_class_of_usage u); [exact C|reflexivity]. }
    split; [|split; [cbn; lia|]].
    + cbn [forallb]. unfold gid_valid. cbn [gid_attachment gid_detachment gid_gssi gid_address_extension gid_vgssi some fits_with fito xorb address_type andb gia_lifetime gia_class_of_usage]. now rewrite FG, FC.
    + cbn [flat_map]. rewrite app_nil_r. unfold gid_bits, address_bits. cbn [gid_attachment gid_detachment gid_gssi gid_address_extension gid_vgssi some address_type cond gia_lifetime gia_class_of_usage].
      rewrite !app_length. unfold num, flag. rewrite ?bits_of_length. cbn [length app]. cbn; lia.
Qed.
Lemma answers_bounds l : Forall giu_small l ->
  forallb gid_valid (answers_to l) = true /\ (length (answers_to l) <= length l)%nat /\ (length (flat_map gid_bits (answers_to l)) <= 32 * length l)%nat.
Proof.
  induction 1 as [|u t Hu Ht IH]; [repeat split; cbn; lia|]. destruct IH as (V & L & B). destruct (answer_valid u Hu) as (V' & L' & B').
  unfold answers_to in *. cbn [flat_map length]. rewrite forallb_app, V, V', flat_map_app, !app_length. repeat split; lia.
Qed.
Lemma answers_fit l : list_small l -> fit4s gid_bits gid_valid (Some (answers_to l)) = true.
Proof.
  intros [F L]. destruct (answers_bounds l F) as (V & A & B). cbn [fit4s]. rewrite V. cbn [andb]. apply andb_true_iff. split; apply N.ltb_lt.
  - change (2 ^ N.of_nat 11) with 2048. lia.
  - change (2 ^ N.of_nat 6) with 64. lia.
Qed.
Lemma mm_encode_ok n p l : writes (mm_pdu_to_bitbuf p) l -> mm_encode n p = Ok tt.
Proof. intros H. unfold mm_encode. destruct (H (bb_new_autoexpand n) (wf_new_autoexpand n)) as (b & E & _); [now left|]. now rewrite E. Qed.
Lemma accept_encodes n ty issi d : ty < 8 -> issi < 16777216 -> match d with Some (Some l) => list_small l | _ => True end ->
  mm_encode n (PmLuAccept (lu_accept ty issi (option_map (fun o => mk_gila 0 (option_map answers_to o)) d))) = Ok tt.
Proof.
  intros T A B. eapply mm_encode_ok. cbn [mm_pdu_to_bitbuf]. apply d_lu_accept_ok; [|reflexivity].
  unfold d_lu_accept_valid, lu_accept. cbn [d_lu_accept_location_update_accept_type d_lu_accept_ssi d_lu_accept_address_extension d_lu_accept_subscriber_class d_lu_accept_energy_saving_information d_lu_accept_scch_information_and_distribution_on_18th_frame d_lu_accept_new_registered_area d_lu_accept_security_downlink d_lu_accept_group_identity_location_accept d_lu_accept_default_group_attachment_lifetime d_lu_accept_authentication_downlink d_lu_accept_group_identity_security_related_information d_lu_accept_cell_type_control d_lu_accept_proprietary].
  assert (F1 : fit 3 ty = true) by (apply N.ltb_lt; exact T). assert (F2 : fit 24 issi = true) by (apply N.ltb_lt; exact A). rewrite F1. cbn [fito]. rewrite F2.
  cbn [andb fito fit3 fit4 some negb]. assert (G : fit3s gila_bits gila_valid (option_map (fun o => mk_gila 0 (option_map answers_to o)) d) = true).
  { destruct d as [[l|]|]; [|reflexivity|reflexivity]. cbn [option_map fit3s]. unfold gila_valid. cbn [gila_accept_reject gila_downlink].
    rewrite (answers_fit l B). cbn [andb]. replace (fit 1 0) with true by reflexivity. cbn [andb]. apply N.ltb_lt. change (2 ^ N.of_nat 11) with 2048.
    destruct (answers_bounds l (proj1 B)) as (_ & _ & L3). pose proof (proj2 B) as L4. unfold gila_bits, options. cbn [gila_accept_reject gila_downlink some existsb id orb].
    unfold num, t4s. do 4 (rewrite ?app_length, ?bits_of_length; cbn [length app]). lia. }
  rewrite G. reflexivity.
Qed.
Lemma ack_encodes n l : list_small l -> mm_encode n (PmAttachAck (mk_d_attach_detach_ack 0 false None (Some (answers_to l)) None)) = Ok tt.
Proof.
  intros B. eapply mm_encode_ok. cbn [mm_pdu_to_bitbuf]. apply d_attach_detach_ack_ok; [|reflexivity]. unfold d_attach_detach_ack_valid.
  cbn [d_attach_detach_ack_group_identity_accept_reject d_attach_detach_ack_reserved d_attach_detach_ack_proprietary d_attach_detach_ack_group_identity_downlink d_attach_detach_ack_group_identity_security_related_information].
  rewrite (answers_fit l B). reflexivity.
Qed.
Lemma command_sent t issi h : lu_command_msg t issi h = Ok (MmToMle t h (ssi_addr issi) (PmLuCommand (mk_d_lu_command true false None None None None))).
Proof. unfold lu_command_msg. rewrite (mm_encode_ok _ (PmLuCommand _) _ (d_lu_command_writes (mk_d_lu_command true false None None None None) eq_refl)). reflexivity. Qed.

(** ** Requests *)
Lemma type_seen {A} (k : N -> reader A) b x b' ty : rbind (rfield 4) k b = Ok (x, b') -> (forall t c, k t c = Ok (x, b') -> t = ty) -> peek_bits b 4 = Ok (Some ty).
Proof.
  intros E H. unfold rbind in E. destruct (rfield 4 b) as [[t b1]| |] eqn:E1; [|discriminate E..]. cbn [bind fst snd] in E.
  rewrite (field_peek 4 b t b1 E1). now rewrite (H _ _ E).
Qed.
Lemma guard_seen {A} c e (k : unit -> reader A) b x b' : rbind (rguard c e) k b = Ok (x, b') -> c = true.
Proof. destruct c; [reflexivity|]. intros H. discriminate H. Qed.
Ltac seen := intros E; eapply type_seen; [exact E|]; intros t c H; apply guard_seen in H; now apply N.eqb_eq in H.
Lemma lu_type b p b' : u_lu_demand_from_bitbuf b = Ok (p, b') -> peek_bits b 4 = Ok (Some MmUl_ULocationUpdateDemand).
Proof. seen. Qed.
Lemma attach_type b p b' : u_attach_detach_from_bitbuf b = Ok (p, b') -> peek_bits b 4 = Ok (Some MmUl_UAttachDetachGroupIdentity).
Proof. seen. Qed.
Lemma detach_type b p b' : u_itsi_detach_from_bitbuf b = Ok (p, b') -> peek_bits b 4 = Ok (Some MmUl_UItsiDetach).
Proof. seen. Qed.
Lemma status_type b p b' : u_mm_status_from_bitbuf b = Ok (p, b') -> peek_bits b 4 = Ok (Some MmUl_UMmStatus).
Proof. seen. Qed.

Lemma attach_groups_sent cfg t i l s s' acc q : attach_groups cfg t i l s = (s', acc, q) -> sent q = [].
Proof. unfold attach_groups. destruct (attach_loop i l s) as [[[s1 acc1] aff] deaff]. intros [= <- <- <-]. now rewrite sent_app, !emit_nonempty_sent. Qed.
(** The groups of a known radio after a list, from what it had just before the list was handled *)
Lemma attach_groups_known cfg t i l s c s' acc q : aget i (mo_clients s) = Some c -> attach_groups cfg t i l s = (s', acc, q) ->
  acc = answers_to l /\ mm_known s' i /\ (forall j, j <> i -> aget j (mo_clients s') = aget j (mo_clients s)) /\
  forall g, mm_attached s' i g <-> match asked l g with Some b => b = true | None => In g (cl_groups c) end.
Proof.
  intros E. unfold attach_groups. destruct (attach_loop i l s) as [[[s1 acc1] aff] deaff] eqn:EL. intros [= <- <- <-].
  destruct (loop_known _ _ _ _ _ _ _ _ E EL) as (gs & G1 & G2 & G3 & G4). split; [exact G3|]. split; [unfold mm_known; congruence|]. split; [exact G2|].
  intros g. unfold mm_attached. rewrite G1. specialize (G4 g). split.
  - intros (x & [= <-] & H). cbn [cl_groups] in H. apply memN_true in H. rewrite H in G4. destruct (asked l g); [congruence|]. now apply memN_true.
  - intros H. exists (mk_client (cl_state c) gs). split; [reflexivity|]. cbn [cl_groups]. apply memN_true. rewrite G4. destruct (asked l g); [exact H|]. now apply memN_true.
Qed.

Lemma lu_supported_iff p : lu_acceptable p <-> lu_supported p = true.
Proof.
  unfold lu_acceptable, lu_supported. rewrite !andb_true_iff, !negb_true_iff, orb_false_iff, !N.eqb_neq.
  destruct (u_lu_demand_ciphering_parameters p); cbn [is_some]; intuition congruence.
Qed.

(** The state just after the radio has become known: what it was attached to is kept *)
Lemma attached_known s i c g : aget i (mo_clients s) = Some c -> (mm_attached s i g <-> In g (cl_groups c)).
Proof. intros E. unfold mm_attached. rewrite E. split; [intros (x & [= <-] & H); exact H|intros H; now exists c]. Qed.
Lemma attached_unknown s i g : aget i (mo_clients s) = None -> ~ mm_attached s i g.
Proof. intros E (c & H & _). congruence. Qed.

Lemma location_update : forall cfg hint i s p b, wf (di_sdu i) -> u_lu_demand_from_bitbuf (di_sdu i) = Ok (p, b) -> lu_acceptable p ->
  ad_ssi (di_addr i) < 16777216 ->
  exists s' q, mm_rx cfg hint i s = Ok (s', q) /\ mm_known s' (ad_ssi (di_addr i)) /\
    replies q (di_handle i) (ad_ssi (di_addr i))
      (PmLuAccept (mk_d_lu_accept (u_lu_demand_location_update_type p) (Some (ad_ssi (di_addr i))) None None None None None None
         (option_map (fun d => mk_gila 0 (option_map answers_to (gild_uplink d))) (u_lu_demand_group_identity_location_demand p)) None None None None None)
       :: match aget (ad_ssi (di_addr i)) (mo_clients s) with
          | None => if u_lu_demand_location_update_type p =? 3 then [] else [PmLuCommand (mk_d_lu_command true false None None None None)]
          | Some _ => []
          end) /\
    attached_as_asked s s' (ad_ssi (di_addr i)) (match lu_groups p with Some l => l | None => [] end) true.
Proof.
  intros cfg hint i s p b W E A S. pose proof (lu_type _ _ _ E) as T. destruct (lu_gives _ _ _ W E) as [[SM1 SM2] _]. apply lu_supported_iff in A.
  unfold mm_rx. rewrite T. cbn [bind]. change (MmUl_ULocationUpdateDemand =? MmUl_UItsiDetach) with false.
  change (MmUl_ULocationUpdateDemand =? MmUl_ULocationUpdateDemand) with true. cbv iota. unfold mm_parsed. rewrite E. unfold rx_u_lu_demand. rewrite A. cbn [negb].
  set (issi := ad_ssi (di_addr i)) in *. set (t := di_dltime i).
  assert (F : exists s1 q1 c1, (if negb (client_is_known issi s) then Some (register_radio cfg t issi s) else option_map (fun s => (s, [])) (set_client_state issi ClAttached s)) = Some (s1, q1) /\
     sent q1 = [] /\ aget issi (mo_clients s1) = Some c1 /\ (forall j, j <> issi -> aget j (mo_clients s1) = aget j (mo_clients s)) /\ forall g, In g (cl_groups c1) <-> mm_attached s issi g).
  { unfold client_is_known, set_client_state. destruct (aget issi (mo_clients s)) as [c|] eqn:K; cbn [negb option_map].
    - exists (mo_set_clients (aset issi (mk_client ClAttached (cl_groups c)) (mo_clients s)) s), [], (mk_client ClAttached (cl_groups c)). cbn [mo_set_clients mo_clients].
      split; [reflexivity|]. split; [reflexivity|]. rewrite aget_aset, N.eqb_refl. split; [reflexivity|]. split; [intros j J; rewrite aget_aset; apply N.eqb_neq in J; now rewrite J|].
      intros g. cbn [cl_groups]. symmetry. now apply attached_known.
    - unfold register_radio. do 2 eexists. exists (mk_client ClAttached []). split; [reflexivity|]. split; [apply emit_sent|]. cbn [register_client mo_set_clients mo_set_reg mo_clients].
      rewrite aget_aset, N.eqb_refl. split; [reflexivity|]. split; [intros j J; rewrite aget_aset, aget_adel; apply N.eqb_neq in J; now rewrite J|].
      intros g. cbn [cl_groups]. split; [intros []|]. intros H. now apply attached_unknown in H. }
  destruct F as (s1 & q1 & c1 & -> & Q1 & K1 & O1 & G1).
  set (second := match u_lu_demand_group_identity_location_demand p with Some d => _ | None => _ end).
  assert (G : exists s2 q2, second = (s2, option_map (fun o => mk_gila 0 (option_map answers_to o)) (option_map gild_uplink (u_lu_demand_group_identity_location_demand p)), q2) /\
     sent q2 = [] /\ mm_known s2 issi /\ attached_as_asked s s2 issi (match lu_groups p with Some l => l | None => [] end) true).
  { assert (SAME : mm_known s1 issi /\ attached_as_asked s s1 issi [] true).
    { split; [unfold mm_known; congruence|]. split; [|exact O1]. intros g. cbn [asked]. rewrite <- G1, (attached_known s1 issi c1 g K1). tauto. }
    unfold second, lu_groups. destruct (u_lu_demand_group_identity_location_demand p) as [d|]; cbn [option_map]; [|exists s1, []; tauto].
    destruct (gild_uplink d) as [l|]; [|exists s1, []; tauto]. destruct (attach_groups cfg t issi l s1) as [[s2 acc] q2] eqn:E2.
    destruct (attach_groups_known _ _ _ _ _ _ _ _ _ K1 E2) as (-> & K2 & O2 & G2). exists s2, q2. split; [reflexivity|]. split; [exact (attach_groups_sent _ _ _ _ _ _ _ _ E2)|].
    split; [exact K2|]. split; [|intros j J; rewrite (O2 j J); now apply O1]. intros g. rewrite G2. destruct (asked l g); [tauto|]. rewrite G1. tauto. }
  destruct G as (s2 & q2 & -> & Q2 & K2 & G2).
  assert (B : match option_map gild_uplink (u_lu_demand_group_identity_location_demand p) with Some (Some l) => list_small l | _ => True end).
  { unfold lu_groups in SM2. destruct (u_lu_demand_group_identity_location_demand p) as [d|]; cbn [option_map]; [|exact Logic.I]. exact SM2. }
  rewrite (accept_encodes 34 _ issi _ SM1 S B : mm_encode 34 (PmLuAccept _) = Ok tt). cbn [bind]. rewrite command_sent. cbn [bind].
  set (cond := negb (client_is_known issi s) && negb (u_lu_demand_location_update_type p =? 3)).
  set (cmd := MmToMle t (di_handle i) (ssi_addr issi) (PmLuCommand (mk_d_lu_command true false None None None None))).
  replace (if cond then Ok [cmd] else Ok []) with (Ok (if cond then [cmd] else [])) by (destruct cond; reflexivity). cbn [bind].
  eexists s2, _. split; [reflexivity|]. split; [exact K2|]. split; [|exact G2].
  unfold replies. rewrite sent_app, sent_app, Q1, Q2. cbn [app sent flat_map map]. f_equal.
  - destruct (u_lu_demand_group_identity_location_demand p); reflexivity.
  - unfold cond, client_is_known. destruct (aget issi (mo_clients s)); cbn [negb andb]; [reflexivity|]. destruct (u_lu_demand_location_update_type p =? 3); reflexivity.
Qed.

Lemma location_refused : forall cfg hint i s p b, u_lu_demand_from_bitbuf (di_sdu i) = Ok (p, b) -> ~ lu_acceptable p -> mm_rx cfg hint i s = Ok (s, []).
Proof.
  intros cfg hint i s p b E A. unfold mm_rx. rewrite (lu_type _ _ _ E). cbn [bind]. change (MmUl_ULocationUpdateDemand =? MmUl_UItsiDetach) with false.
  change (MmUl_ULocationUpdateDemand =? MmUl_ULocationUpdateDemand) with true. cbv iota. unfold mm_parsed. rewrite E. unfold rx_u_lu_demand.
  rewrite lu_supported_iff in A. apply not_true_is_false in A. rewrite A. reflexivity.
Qed.

Lemma group_request : forall cfg hint i s p b l, wf (di_sdu i) -> u_attach_detach_from_bitbuf (di_sdu i) = Ok (p, b) ->
  u_attach_detach_group_identity_uplink p = Some l -> (u_attach_detach_group_identity_attach_detach_mode p = true \/ mm_known s (ad_ssi (di_addr i))) ->
  exists s' q, mm_rx cfg hint i s = Ok (s', q) /\ mm_known s' (ad_ssi (di_addr i)) /\
    replies q (di_handle i) (ad_ssi (di_addr i)) [PmAttachAck (mk_d_attach_detach_ack 0 false None (Some (answers_to l)) None)] /\
    attached_as_asked s s' (ad_ssi (di_addr i)) l (negb (u_attach_detach_group_identity_attach_detach_mode p)).
Proof.
  intros cfg hint i s p b l W E L M. destruct (attach_gives _ _ _ W E) as [SM _]. rewrite L in SM.
  unfold mm_rx. rewrite (attach_type _ _ _ E). cbn [bind]. change (MmUl_UAttachDetachGroupIdentity =? MmUl_UItsiDetach) with false.
  change (MmUl_UAttachDetachGroupIdentity =? MmUl_ULocationUpdateDemand) with false. change (MmUl_UAttachDetachGroupIdentity =? MmUl_UMmStatus) with false.
  change (MmUl_UAttachDetachGroupIdentity =? MmUl_UAttachDetachGroupIdentity) with true. cbv iota. unfold mm_parsed. rewrite E. unfold rx_u_attach_detach. rewrite L.
  set (issi := ad_ssi (di_addr i)) in *. set (t := di_dltime i). set (mode := u_attach_detach_group_identity_attach_detach_mode p) in *.
  assert (F : exists s1 q1 c1, (if mode then if negb (client_is_known issi s) then Some (register_radio cfg t issi s) else drop_groups cfg hint t issi s else Some (s, [])) = Some (s1, q1) /\
     sent q1 = [] /\ aget issi (mo_clients s1) = Some c1 /\ (forall j, j <> issi -> aget j (mo_clients s1) = aget j (mo_clients s)) /\
     forall g, In g (cl_groups c1) <-> negb mode = true /\ mm_attached s issi g).
  { destruct mode; cbn [negb].
    - unfold client_is_known, drop_groups, client_detach_all. destruct (aget issi (mo_clients s)) as [c|] eqn:K; cbn [negb].
      + do 2 eexists. exists (mk_client (cl_state c) []). split; [reflexivity|]. split; [apply emit_nonempty_sent|]. cbn [mo_set_clients mo_set_reg mo_clients].
        rewrite aget_aset, N.eqb_refl. split; [reflexivity|]. split; [intros j J; rewrite aget_aset; apply N.eqb_neq in J; now rewrite J|].
        intros g. cbn [cl_groups]. split; [intros []|intros [H _]; discriminate H].
      + unfold register_radio. do 2 eexists. exists (mk_client ClAttached []). split; [reflexivity|]. split; [apply emit_sent|]. cbn [register_client mo_set_clients mo_set_reg mo_clients].
        rewrite aget_aset, N.eqb_refl. split; [reflexivity|]. split; [intros j J; rewrite aget_aset, aget_adel; apply N.eqb_neq in J; now rewrite J|].
        intros g. cbn [cl_groups]. split; [intros []|intros [H _]; discriminate H].
    - destruct M as [M|M]; [discriminate M|]. unfold mm_known in M. destruct (aget issi (mo_clients s)) as [c|] eqn:K; [|congruence].
      exists s, [], c. split; [reflexivity|]. split; [reflexivity|]. split; [exact K|]. split; [reflexivity|]. intros g. rewrite (attached_known s issi c g K). tauto. }
  destruct F as (s1 & q1 & c1 & -> & Q1 & K1 & O1 & G1). destruct (attach_groups cfg t issi l s1) as [[s2 acc] q2] eqn:E2.
  destruct (attach_groups_known _ _ _ _ _ _ _ _ _ K1 E2) as (-> & K2 & O2 & G2). rewrite (ack_encodes 32 l SM). cbn [bind].
  eexists s2, _. split; [reflexivity|]. split; [exact K2|]. split.
  - unfold replies. rewrite sent_app, sent_app, Q1, (attach_groups_sent _ _ _ _ _ _ _ _ E2). reflexivity.
  - split; [|intros j J; rewrite (O2 j J); now apply O1]. intros g. rewrite G2. destruct (asked l g); [tauto|]. apply G1.
Qed.
Lemma group_request_stranger : forall cfg hint i s p b l, u_attach_detach_from_bitbuf (di_sdu i) = Ok (p, b) ->
  u_attach_detach_group_identity_uplink p = Some l -> u_attach_detach_group_identity_attach_detach_mode p = false -> ~ mm_known s (ad_ssi (di_addr i)) ->
  mm_rx cfg hint i s = Ok (s, [MmToMle (di_dltime i) (di_handle i) (mk_addr (ad_ssi (di_addr i)) false SsiSsi)
    (PmAttachAck (mk_d_attach_detach_ack 0 false None (Some []) None))]).
Proof.
  intros cfg hint i s p b l E L M K.
  unfold mm_rx. rewrite (attach_type _ _ _ E). cbn [bind]. change (MmUl_UAttachDetachGroupIdentity =? MmUl_UItsiDetach) with false.
  change (MmUl_UAttachDetachGroupIdentity =? MmUl_ULocationUpdateDemand) with false. change (MmUl_UAttachDetachGroupIdentity =? MmUl_UMmStatus) with false.
  change (MmUl_UAttachDetachGroupIdentity =? MmUl_UAttachDetachGroupIdentity) with true. cbv iota. unfold mm_parsed. rewrite E. unfold rx_u_attach_detach. rewrite L, M.
  assert (N : aget (ad_ssi (di_addr i)) (mo_clients s) = None) by (unfold mm_known in K; destruct (aget _ _); [exfalso; apply K; discriminate|reflexivity]).
  unfold attach_groups. rewrite (loop_unknown _ l _ N). rewrite (ack_encodes 32 [] (conj (Forall_nil _) (Nat.lt_0_succ 63)) : mm_encode 32 (PmAttachAck (mk_d_attach_detach_ack 0 false None (Some []) None)) = Ok tt).
  reflexivity.
Qed.
Lemma itsi_detach : forall cfg hint i s p b, u_itsi_detach_from_bitbuf (di_sdu i) = Ok (p, b) ->
  exists s' q, mm_rx cfg hint i s = Ok (s', q) /\ sent q = [] /\ ~ mm_known s' (ad_ssi (di_addr i)) /\
    forall j, j <> ad_ssi (di_addr i) -> aget j (mo_clients s') = aget j (mo_clients s).
Proof.
  intros cfg hint i s p b E. unfold mm_rx. rewrite (detach_type _ _ _ E). cbn [bind]. change (MmUl_UItsiDetach =? MmUl_UItsiDetach) with true. cbv iota.
  unfold mm_parsed. rewrite E. unfold rx_u_itsi_detach. destruct (aget _ (mo_clients s)) as [c|] eqn:K.
  - do 2 eexists. split; [reflexivity|]. split; [now rewrite sent_app, emit_nonempty_sent, emit_sent|]. unfold mm_known. cbn [mo_clients]. split.
    + rewrite aget_adel, N.eqb_refl. intros H. now apply H.
    + intros j J. rewrite aget_adel. apply N.eqb_neq in J. now rewrite J.
  - exists s, []. split; [reflexivity|]. split; [reflexivity|]. split; [unfold mm_known; rewrite K; intros H; now apply H|reflexivity].
Qed.
Lemma status_answered : forall cfg hint i s p b, u_mm_status_from_bitbuf (di_sdu i) = Ok (p, b) ->
  mm_rx cfg hint i s = Ok (s, [MmToMle (di_dltime i) (di_handle i) (di_addr i)
    (PmNotSupported (mk_mm_function_not_supported 3 (Some (6%nat, u_mm_status_status_uplink p))))]).
Proof.
  intros cfg hint i s p b E. unfold mm_rx. rewrite (status_type _ _ _ E). cbn [bind]. change (MmUl_UMmStatus =? MmUl_UItsiDetach) with false.
  change (MmUl_UMmStatus =? MmUl_ULocationUpdateDemand) with false. change (MmUl_UMmStatus =? MmUl_UMmStatus) with true. cbv iota.
  unfold mm_parsed. rewrite E. unfold rx_u_mm_status.
  assert (V : status_uplink_ok (u_mm_status_status_uplink p) = true).
  { unfold u_mm_status_from_bitbuf in E. unfold rbind in E at 1. destruct (rfield 4 _) as [[t b1]| |]; [|discriminate E..]. cbn [bind fst snd] in E.
    unfold rbind in E at 1. destruct (t =? MmUl_UMmStatus); [|discriminate E]. cbn [rguard rret bind fst snd] in E.
    unfold rbind in E at 1. destruct (rfield 6 _) as [[v b2]| |]; [|discriminate E..]. cbn [bind fst snd] in E. cbv zeta in E.
    unfold rbind in E at 1. destruct (status_uplink_ok v) eqn:V; [|discriminate E]. cbn [rguard rret bind fst snd] in E.
    unfold rbind in E at 1. destruct (rlen_remaining _) as [[n b3]| |]; [|discriminate E..]. cbn [bind fst snd] in E.
    unfold rbind in E at 1. destruct (ropt _ _ _) as [[o b4]| |]; [|discriminate E..]. cbn [bind fst snd rret] in E. injection E as <- _. exact V. }
  assert (X : mm_encode 14 (PmNotSupported (mk_mm_function_not_supported 3 (Some (6%nat, u_mm_status_status_uplink p)))) = Ok tt).
  { eapply mm_encode_ok. cbn [mm_pdu_to_bitbuf]. apply mm_function_not_supported_writes. unfold mm_function_not_supported_valid.
    cbn [mm_function_not_supported_not_supported_pdu_type mm_function_not_supported_not_supported_sub_pdu_type fits_with]. rewrite (status_fit _ V). reflexivity. }
  change MmUl_UMmStatus with 3. rewrite X. reflexivity.
Qed.
Lemma others_ignored : forall cfg hint i s ty, peek_bits (di_sdu i) 4 = Ok (Some ty) -> ~ In ty [1; 2; 3; 7] -> mm_rx cfg hint i s = Ok (s, []).
Proof.
  intros cfg hint i s ty E N. unfold mm_rx. rewrite E. cbn [bind]. cbn [In] in N.
  destruct (N.eqb_spec ty MmUl_UItsiDetach) as [->|]; [exfalso; apply N; left; reflexivity|].
  destruct (N.eqb_spec ty MmUl_ULocationUpdateDemand) as [->|]; [exfalso; apply N; right; left; reflexivity|].
  destruct (N.eqb_spec ty MmUl_UMmStatus) as [->|]; [exfalso; apply N; right; right; left; reflexivity|].
  destruct (N.eqb_spec ty MmUl_UAttachDetachGroupIdentity) as [->|]; [exfalso; apply N; right; right; right; left; reflexivity|]. reflexivity.
Qed.

(** ** Histories that can be played *)
Fixpoint deliver (cfg : cfg_route) (l : list sub_update) (c : cc) : option cc :=
  match l with
  | [] => Some c
  | u :: t => match cc_step cfg (EvSubscriber [] [] (su_issi u) (su_groups u) (su_action u)) c with Ok (c', _) => deliver cfg t c' | _ => None end
  end.
Fixpoint mplay (cfg : cfg_route) (l : list mm_ind) (m : mob) (c : cc) : option (mob * cc) :=
  match l with
  | [] => Some (m, c)
  | i :: t => match mm_rx cfg [] i m with
              | Ok (m', q) => match deliver cfg (to_cmce q) c with Some c' => mplay cfg t m' c' | None => None end
              | _ => None
              end
  end.
Lemma deliver_runs cfg ok m l : forall c c' p, runs_to cfg ok (mk_sys m c (l ++ p)) -> deliver cfg l c = Some c' -> runs_to cfg ok (mk_sys m c' p).
Proof.
  induction l as [|u t IH]; intros c c' p R E; cbn [deliver] in E; [injection E as <-; exact R|].
  destruct (cc_step cfg _ c) as [[c1 q]| |] eqn:E1; [|discriminate E..]. apply (IH c1 c' p); [|exact E]. cbn [app] in R. exact (runs_deliver _ _ _ _ _ _ _ _ _ _ R E1).
Qed.
Lemma mplay_runs cfg (ok : mm_ind -> Prop) l : Forall ok l -> forall m c m' c', runs_to cfg ok (mk_sys m c []) -> mplay cfg l m c = Some (m', c') -> runs_to cfg ok (mk_sys m' c' []).
Proof.
  induction 1 as [|i t O F IH]; intros m c m' c' R E; cbn [mplay] in E; [injection E as <- <-; exact R|].
  destruct (mm_rx cfg [] i m) as [[m1 q]| |] eqn:E1; [|discriminate E..]. destruct (deliver cfg (to_cmce q) c) as [c1|] eqn:E2; [|discriminate E].
  refine (IH _ _ _ _ _ E). apply (deliver_runs cfg ok m1 (to_cmce q) c c1 []); [|exact E2]. rewrite app_nil_r.
  exact (runs_radio _ _ _ _ [] _ _ _ _ R O E1).
Qed.

Definition say (issi : N) (w : list bool) : mm_ind :=
  mk_mm_ind time_default (match bb_from_bitstr w with Ok b => b | _ => bb_new 0 end) (mk_addr issi false SsiSsi) 7.
Definition attach (g : N) : giu := mk_giu (Some 4) None (Some g) None None.
Definition detach (g : N) : giu := mk_giu None (Some 2) (Some g) None None.
Definition ask (mode : bool) (l : list giu) : u_attach_detach := mk_u_attach_detach false mode None (Some l) None.
Definition locate (ty mode : N) (l : list giu) : u_lu_demand :=
  mk_u_lu_demand ty false false None None None None None None (Some (mk_gild mode (Some l))) None None None None.
Definition ex_talk : list mm_ind :=
  [ say 1 (u_lu_demand_wire (locate 0 0 [attach 100; attach 200])); say 2 (u_attach_detach_wire (ask true [attach 100]));
    say 3 (u_lu_demand_wire (locate 3 0 [attach 300])); say 1 (u_attach_detach_wire (ask false [detach 200; attach 400])); say 3 (u_itsi_detach_wire (mk_u_itsi_detach None None)) ].
(** Radio 1 is attached to group 100; it detaches from and attaches to the group in one request. *)
Definition ex_again : list mm_ind :=
  [ say 1 (u_lu_demand_wire (locate 3 0 [attach 100])); say 1 (u_attach_detach_wire (ask false [detach 100; attach 100])) ].
Definition after_talk (l : list mm_ind) (P : mob -> cc -> bool) : bool := match mplay ex_cfg l mob_new cc_new with Some (m, c) => P m c | None => false end.
Lemma after_talk_runs l P : after_talk l P = true -> exists m c, runs_to ex_cfg (fun _ => True) (mk_sys m c []) /\ P m c = true.
Proof.
  unfold after_talk. destruct (mplay _ _ _ _) as [[m c]|] eqn:E; [|discriminate]. intros H. exists m, c. split; [|exact H].
  refine (mplay_runs ex_cfg (fun _ => True) l _ mob_new cc_new m c _ E); [|apply runs_start]. clear. induction l; constructor; auto.
Qed.
Definition mm_groups (issi : N) (m : mob) : option (list N) := option_map cl_groups (aget issi (mo_clients m)).
Definition same_groups (a b : option (list N)) : bool :=
  match a, b with Some x, Some y => forallb (fun g => memN g y) x && forallb (fun g => memN g x) y | None, None => true | _, _ => false end.

Definition in_groups (g : N) (o : option (list N)) : bool := match o with Some l => memN g l | None => false end.
Lemma again_parts : exists cfg m c, runs_to cfg (fun _ => True) (mk_sys m c []) /\ mm_attached m 1 100 /\ ~ cc_attached c 1 100 /\ has_listener 100 c = false.
Proof.
  destruct (after_talk_runs ex_again (fun m c => in_groups 100 (mm_groups 1 m) && negb (in_groups 100 (aget 1 (cc_subs c))) && negb (has_listener 100 c))) as (m & c & R & H);
    [vm_compute; reflexivity|].
  rewrite !andb_true_iff, !negb_true_iff in H. destruct H as [[H1 H2] H3].
  exists ex_cfg, m, c. split; [exact R|]. unfold mm_groups, mm_attached, cc_attached, in_groups in *. split; [|split; [|exact H3]].
  - destruct (aget 1 (mo_clients m)) as [x|]; [|discriminate H1]. exists x. split; [reflexivity|]. now apply memN_true.
  - intros (l & E & I). rewrite E in H2. apply memN_true in I. congruence.
Qed.
(** A location update that asks for all other groups to be detached leaves them attached. *)
Lemma location_mode : exists cfg hint i s p b, wf (di_sdu i) /\ u_lu_demand_from_bitbuf (di_sdu i) = Ok (p, b) /\ lu_acceptable p /\
  option_map gild_mode (u_lu_demand_group_identity_location_demand p) = Some 1 /\
  exists s' q, mm_rx cfg hint i s = Ok (s', q) /\ ~ attached_as_asked s s' (ad_ssi (di_addr i)) (match lu_groups p with Some l => l | None => [] end) false.
Proof.
  set (p := locate 0 1 [attach 200]). set (i := say 1 (u_lu_demand_wire p)). set (s := mk_mob [(1, mk_client ClAttached [100])] (reg_affiliate 1 100 reg_new)).
  exists ex_cfg, [], i, s, p, (adv (di_sdu i) (length (u_lu_demand_wire p))).
  assert (W : wf (di_sdu i)).
  { unfold i, say. cbn [di_sdu]. vm_compute bb_from_bitstr. cbv iota. unfold wf. split; [|split; [|split]]; [vm_compute; lia..|].
    cbn [bytes]. repeat constructor. }
  split; [exact W|]. split; [vm_compute; reflexivity|]. split; [unfold lu_acceptable; cbn; repeat split; discriminate|]. split; [reflexivity|].
  destruct (location_update ex_cfg [] i s p (adv (di_sdu i) (length (u_lu_demand_wire p))) W) as (s' & q & E & _ & _ & A); [vm_compute; reflexivity|unfold lu_acceptable; cbn; repeat split; discriminate|reflexivity|].
  exists s', q. split; [exact E|]. intros [B _]. destruct A as [A _]. destruct (B 100) as [B1 _]. destruct (A 100) as [_ A2].
  change (asked (match lu_groups p with Some l => l | None => [] end) 100) with (@None bool) in *. cbv iota in *. destruct B1; [|discriminate H].
  apply A2. split; [reflexivity|]. exists (mk_client ClAttached [100]). split; [reflexivity|left; reflexivity].
Qed.

(** ** Examples *)
Definition bits_ex (n : nat) (v : N) : list bool := bits_of n v.
Lemma orderly_b l : (forall j k u v, (j < k)%nat -> nth_error l j = Some u -> nth_error l k = Some v -> giu_detachment u = None \/ giu_gssi u <> giu_gssi v) -> orderly l.
Proof. intros H j k u v g L J K G1 G2 D. destruct (H j k u v L J K) as [Q|Q]; congruence. Qed.
Fixpoint orderlyb (l : list giu) : bool :=
  match l with
  | [] => true
  | u :: t => (negb (is_some (giu_detachment u)) || forallb (fun v => match giu_gssi u, giu_gssi v with Some a, Some b => negb (a =? b) | _, _ => true end) t) && orderlyb t
  end.
Lemma orderlyb_ok l : orderlyb l = true -> orderly l.
Proof.
  induction l as [|u t IH]; intros H j k a b g L J K G1 G2 D; [destruct j; discriminate J|]. cbn [orderlyb] in H. apply andb_true_iff in H. destruct H as [H1 H2].
  destruct k as [|k]; [lia|]. destruct j as [|j]; [|exact (IH H2 j k a b g ltac:(lia) J K G1 G2 D)].
  cbn [nth_error] in J, K. injection J as ->. apply orb_true_iff in H1. destruct H1 as [H1|H1].
  - destruct (giu_detachment a); [discriminate H1|congruence].
  - rewrite forallb_forall in H1. specialize (H1 b (nth_error_In _ _ K)). rewrite G1, G2, N.eqb_refl in H1. discriminate H1.
Qed.
Definition orderly_ind (i : mm_ind) : bool :=
  match u_lu_demand_from_bitbuf (di_sdu i) with Ok (p, _) => match lu_groups p with Some l => orderlyb l | None => true end | _ => true end &&
  match u_attach_detach_from_bitbuf (di_sdu i) with Ok (p, _) => match u_attach_detach_group_identity_uplink p with Some l => orderlyb l | None => true end | _ => true end.
Lemma orderly_ind_ok i : orderly_ind i = true -> orderly_request i.
Proof.
  unfold orderly_ind. intros H. apply andb_true_iff in H. destruct H as [H1 H2]. split.
  - intros p b l E L. rewrite E, L in H1. now apply orderlyb_ok.
  - intros p b l E L. rewrite E, L in H2. now apply orderlyb_ok.
Qed.
Lemma talk_orderly : exists m c, runs_to ex_cfg orderly_request (mk_sys m c []) /\ same_groups (mm_groups 1 m) (Some [100; 400]) = true /\
  same_groups (aget 1 (cc_subs c)) (Some [100; 400]) = true.
Proof.
  assert (H : after_talk ex_talk (fun m c => same_groups (mm_groups 1 m) (Some [100; 400]) && same_groups (aget 1 (cc_subs c)) (Some [100; 400])) = true) by (vm_compute; reflexivity).
  unfold after_talk in H. destruct (mplay _ _ _ _) as [[m c]|] eqn:E; [|discriminate H]. exists m, c. apply andb_true_iff in H. split; [|exact H].
  refine (mplay_runs ex_cfg orderly_request ex_talk _ mob_new cc_new m c _ E); [|apply runs_start]. apply Forall_forall.
  assert (F : forallb orderly_ind ex_talk = true) by (vm_compute; reflexivity). rewrite forallb_forall in F. intros x I. apply orderly_ind_ok. now apply F.
Qed.
Lemma say_wf issi w b : bb_from_bitstr w = Ok b -> (bstart b <=? bpos b)%nat && (bpos b <=? bend b)%nat && (bend b <=? cap b)%nat && forallb (fun x => x <? 256) (bytes b) = true ->
  wf (di_sdu (say issi w)).
Proof.
  intros E H. unfold say. cbn [di_sdu]. rewrite E. rewrite !andb_true_iff, !Nat.leb_le in H. destruct H as [[[A B] C] D]. split; [exact A|]. split; [exact B|]. split; [exact C|].
  rewrite forallb_forall in D. apply Forall_forall. intros x I. apply N.ltb_lt. now apply D.
Qed.
Lemma ex_location : let i := say 1 (u_lu_demand_wire (locate 0 0 [attach 100; detach 200])) in
  wf (di_sdu i) /\ exists b, u_lu_demand_from_bitbuf (di_sdu i) = Ok (locate 0 0 [attach 100; detach 200], b) /\ lu_acceptable (locate 0 0 [attach 100; detach 200]).
Proof.
  cbv zeta. split; [eapply say_wf; vm_compute; reflexivity|]. eexists. split; [vm_compute; reflexivity|]. unfold lu_acceptable. cbn. repeat split; discriminate.
Qed.
Lemma ex_group : let i := say 2 (u_attach_detach_wire (ask true [attach 100; detach 200; attach 300])) in
  wf (di_sdu i) /\ exists b, u_attach_detach_from_bitbuf (di_sdu i) = Ok (ask true [attach 100; detach 200; attach 300], b).
Proof. cbv zeta. split; [eapply say_wf; vm_compute; reflexivity|]. eexists. vm_compute; reflexivity. Qed.
