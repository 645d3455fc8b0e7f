(** Call control never panics on acceptable events. *)
From Verif Require Import Base BitsLib BitBuffer BitBufferProofs Codec CodecProofs TypedFields AMap AMapOrder TdmaTime TdmaTimeProofs TimeslotAlloc MacFields
  UmacCircuits UmacCircuitsProofs PduSpec PduProofs CmceFields CmcePdus CmceSpec CmceProofs BrewRoute CircuitMgr CallControl ReaderGives CcFacts CcProofs
  Layer3Spec Layer3Parse Layer3Proofs Layer3Facts CcSafeSpec.
Open Scope N_scope.

(** ** Maps as lists *)
Lemma Forall_adel {A} (P : N * A -> Prop) k m : Forall P m -> Forall P (adel k m).
Proof. intros H. apply Forall_forall. intros p Hp. apply in_adel in Hp. exact (proj1 (Forall_forall P m) H p (proj1 Hp)). Qed.
Lemma Forall_aset {A} (P : N * A -> Prop) k v m : P (k, v) -> Forall P m -> Forall P (aset k v m).
Proof. intros H F. constructor; [exact H|now apply Forall_adel]. Qed.
Lemma Forall_aget {A} (P : N * A -> Prop) k v m : Forall P m -> aget k m = Some v -> P (k, v).
Proof. intros H E. exact (proj1 (Forall_forall P m) H _ (aget_in _ _ _ E)). Qed.
Lemma arrange_from {A} h (m : amap A) p : In p (arrange h m) -> In p m.
Proof.
  unfold arrange. rewrite in_app_iff, in_flat_map, filter_In. intros [(k & _ & H)|[H _]]; [|exact H].
  destruct (aget k m) eqn:E; [|destruct H]. destruct H as [<-|[]]. now apply aget_in.
Qed.
Lemma Forall_arrange {A} (P : N * A -> Prop) h m : Forall P m -> Forall P (arrange h m).
Proof. intros H. apply Forall_forall. intros p Hp. exact (proj1 (Forall_forall P m) H p (arrange_from h m p Hp)). Qed.
Lemma find_from {A} (P : N * A -> Prop) f h m p : Forall P m -> find f (arrange h m) = Some p -> P p.
Proof. intros H E. apply find_some in E. exact (proj1 (Forall_forall P m) H p (arrange_from h m p (proj1 E))). Qed.

(** ** Messages *)
Lemma fit_of k n : n < 2 ^ N.of_nat k -> fit k n = true.
Proof. intros H. now apply N.ltb_lt. Qed.
Lemma id_fit id : id < 1024 -> fit 14 id = true.
Proof. intros H. apply fit_of. change (2 ^ N.of_nat 14) with 16384. lia. Qed.
Lemma mask_ok ts : (1 <= ts <= 4)%nat -> exists m, slot_mask ts = Ok m.
Proof. intros [A B]. unfold slot_mask. apply Nat.leb_le in A, B. rewrite A, B. cbn [andb assert bind]. now eexists. Qed.

Lemma setup_sent p u ts t a r : d_setup_valid p = true -> (1 <= ts <= 4)%nat -> exists m, setup_msg p u ts t a r = Ok m.
Proof.
  intros V T. unfold setup_msg. rewrite (encode_ok 80 (PdSetup p) _ (proj1 (d_setup_ok p V))). cbn [bind].
  destruct (mask_ok ts T) as (m & ->). cbn [bind]. now eexists.
Qed.
Lemma setup_id p : d_setup_valid p = true -> fit 14 (d_setup_call_identifier p) = true.
Proof. unfold d_setup_valid. rewrite !andb_true_iff. tauto. Qed.
Lemma release_valid id cause : fit 14 id = true -> cause <= 23 -> d_release_valid (mk_d_release id cause None None None) = true.
Proof. intros F C. apply N.leb_le in C. unfold d_release_valid. cbn [d_release_call_identifier d_release_disconnect_cause d_release_notification_indicator d_release_facility d_release_proprietary fito fit3]. now rewrite F, C. Qed.
Lemma release_sent p cause t a : d_setup_valid p = true -> cause <= 23 -> exists m, release_msg p cause t a = Ok m.
Proof.
  intros V C. unfold release_msg. cbv zeta. rewrite (encode_ok 32 (PdRelease _) _ (proj1 (d_release_ok _ (release_valid _ _ (setup_id p V) C)))). cbn [bind]. now eexists.
Qed.
Lemma ceased_sent n id t a ts : id < 1024 -> (1 <= ts <= 4)%nat -> exists m, stealing_msg n (tx_ceased_pdu id) t a ts = Ok m.
Proof.
  intros I T. unfold stealing_msg, tx_ceased_pdu. assert (V : d_tx_ceased_valid (mk_d_tx_ceased id false None None None None) = true).
  { unfold d_tx_ceased_valid. cbn [d_tx_ceased_call_identifier d_tx_ceased_notification_indicator d_tx_ceased_facility d_tx_ceased_dm_ms_address d_tx_ceased_proprietary fito fit3]. now rewrite (id_fit id I). }
  rewrite (encode_ok n (PdTxCeased _) _ (proj1 (d_tx_ceased_ok _ V))). cbn [bind]. destruct (mask_ok ts T) as (m & ->). cbn [bind]. now eexists.
Qed.
Lemma granted_sent n id g w t a ts : id < 1024 -> g < 4 -> w < 16777216 -> (1 <= ts <= 4)%nat -> exists m, stealing_msg n (tx_granted_pdu id g w) t a ts = Ok m.
Proof.
  intros I G U T. unfold stealing_msg, tx_granted_pdu.
  assert (V : d_tx_granted_valid (mk_d_tx_granted id g false false false None (Some 1) (Some w) None None None None None) = true).
  { unfold d_tx_granted_valid. cbn [d_tx_granted_call_identifier d_tx_granted_transmission_grant d_tx_granted_notification_indicator d_tx_granted_transmitting_party_type_identifier d_tx_granted_transmitting_party_address_ssi d_tx_granted_transmitting_party_extension d_tx_granted_external_subscriber_number d_tx_granted_facility d_tx_granted_dm_ms_address d_tx_granted_proprietary fito fit3 some].
    now rewrite (id_fit id I), (fit_of 2 g G), (fit_of 24 w U). }
  rewrite (encode_ok n (PdTxGranted _) _ (proj1 (d_tx_granted_ok _ V))). cbn [bind]. destruct (mask_ok ts T) as (m & ->). cbn [bind]. now eexists.
Qed.
Lemma connect_valid id h s g r o : id < 1024 -> g < 4 -> d_connect_valid (mk_d_connect id T5m h s g r o None None None None None None) = true.
Proof.
  intros I G. unfold d_connect_valid.
  cbn [d_connect_call_identifier d_connect_call_time_out d_connect_transmission_grant d_connect_call_priority d_connect_basic_service_information d_connect_temporary_address d_connect_notification_indicator d_connect_facility d_connect_proprietary fito fit3 fits_with].
  now rewrite (id_fit id I), (fit_of 2 g G).
Qed.
Lemma proceeding_sent i p id : id < 1024 -> exists m, call_proceeding_msg i p id = Ok m.
Proof.
  intros I. unfold call_proceeding_msg. cbv zeta.
  match goal with |- context [PdCallProceeding ?r] => assert (V : d_call_proceeding_valid r = true) end.
  { unfold d_call_proceeding_valid. cbn [d_call_proceeding_call_identifier d_call_proceeding_call_time_out_set_up_phase d_call_proceeding_basic_service_information d_call_proceeding_call_status d_call_proceeding_notification_indicator d_call_proceeding_facility d_call_proceeding_proprietary fito fit3 fits_with]. now rewrite (id_fit id I). }
  rewrite (encode_ok 25 (PdCallProceeding _) _ (proj1 (d_call_proceeding_ok _ V))). cbn [bind]. now eexists.
Qed.
Lemma connect_sent i p c : ci_call c < 1024 -> (1 <= ci_ts c <= 4)%nat -> exists m, connect_caller_msg i p c = Ok m.
Proof.
  intros I T. unfold connect_caller_msg. cbv zeta.
  rewrite (encode_ok 30 (PdConnect _) _ (proj1 (d_connect_ok _ (connect_valid (ci_call c) (u_setup_hook_method_selection p) (u_setup_simplex_duplex_selection p) Granted false true I eq_refl)))).
  cbn [bind]. destruct (mask_ok _ T) as (m & ->). cbn [bind]. now eexists.
Qed.
Lemma connect_group_sent id t a : id < 1024 -> exists m, connect_group_msg id t a = Ok m.
Proof.
  intros I. unfold connect_group_msg. cbv zeta.
  rewrite (encode_ok 30 (PdConnect _) _ (proj1 (d_connect_ok _ (connect_valid id false false GrantedToOtherUser false false I eq_refl)))).
  cbn [bind]. now eexists.
Qed.
Lemma setup_valid id h s bs g pr w : id < 1024 -> bsi_valid bs = true -> g < 4 -> pr < 16 -> w < 16777216 ->
  d_setup_valid (mk_d_setup id T5m h s bs g false pr None None (Some w) None None None None None) = true.
Proof.
  intros I B G P U. unfold d_setup_valid.
  cbn [d_setup_call_identifier d_setup_call_time_out d_setup_basic_service_information d_setup_transmission_grant d_setup_call_priority d_setup_notification_indicator d_setup_temporary_address d_setup_calling_party_address_ssi d_setup_calling_party_extension d_setup_external_subscriber_number d_setup_facility d_setup_dm_ms_address d_setup_proprietary fito fit3 some].
  now rewrite (id_fit id I), B, (fit_of 2 g G), (fit_of 4 pr P), (fit_of 24 w U).
Qed.
Lemma grant_valid g p : g < 4 -> d_setup_valid p = true -> d_setup_valid (set_grant g p) = true.
Proof.
  intros G. unfold d_setup_valid, set_grant.
  cbn [d_setup_call_identifier d_setup_call_time_out d_setup_basic_service_information d_setup_transmission_grant d_setup_call_priority d_setup_notification_indicator d_setup_temporary_address d_setup_calling_party_address_ssi d_setup_calling_party_extension d_setup_external_subscriber_number d_setup_facility d_setup_dm_ms_address d_setup_proprietary].
  rewrite !andb_true_iff. rewrite (fit_of 2 g G). tauto.
Qed.

(** ** What is kept *)
Definition call_fine (p : N * active_call) : Prop :=
  fst p < 1024 /\ (2 <= ac_ts (snd p) <= 4)%nat /\ match ac_hang (snd p) with Some h => vtime h | None => True end.
Definition setup_fine (p : N * (d_setup * tetra_addr)) : Prop := d_setup_valid (fst (snd p)) = true.
Record mgr_fine (m : cmgr) : Prop := {
  mf_time : vtime (cm_dltime m);
  mf_dl : length (cm_dl m) = 4%nat;
  mf_ul : cm_ul m = repeat None 4;
  mf_circ : forall i c, nth i (cm_dl m) None = Some c -> ci_ts c = S i /\ ci_dir c = DirBoth /\ vtime (ci_created c);
  mf_next : cm_next_call m < 1024 }.
Record fine (s : cc) : Prop := {
  fi_time : vtime (cc_dltime s);
  fi_mgr : mgr_fine (cc_circ s);
  fi_slots : length (cc_slots s) = 3%nat;
  fi_cached : Forall setup_fine (cc_cached s);
  fi_active : Forall call_fine (cc_active s) }.

Lemma fine_new : fine cc_new.
Proof.
  split; cbn [cc_new cc_dltime cc_circ cc_slots cc_cached cc_active]; [unfold vtime; cbn; lia| |reflexivity|constructor|constructor].
  split; [unfold vtime; cbn; lia|reflexivity|reflexivity| |reflexivity].
  intros i c. cbn [cmgr_new cm_dl]. do 4 (destruct i as [|i]; [discriminate|]). cbn. now destruct i.
Qed.

(** ** Handlers *)
Definition sound (f : cc_act) : Prop := forall s, fine s -> exists s' q, f s = Ok (s', q) /\ fine s'.
Lemma sound_nothing : sound nothing.
Proof. intros s F. now exists s, []. Qed.
Lemma sound_andthen f g : sound f -> sound g -> sound (andthen f g).
Proof.
  intros A B s F. destruct (A s F) as (s1 & q1 & E1 & F1). destruct (B s1 F1) as (s2 & q2 & E2 & F2). unfold andthen. rewrite E1. cbn [bind]. rewrite E2. cbn [bind].
  now exists s2, (q1 ++ q2).
Qed.
Lemma sound_each {A} (f : A -> cc_act) l : (forall x, In x l -> sound (f x)) -> sound (each f l).
Proof.
  induction l as [|x t IH]; intros H; cbn [each]; [exact sound_nothing|]. apply sound_andthen; [apply H; now left|]. apply IH. intros y Hy. apply H. now right.
Qed.
Lemma sound_when b f : sound f -> sound (when b f).
Proof. destruct b; [auto|intros _; exact sound_nothing]. Qed.
Lemma sound_umac c : sound (to_umac c).
Proof. intros s F. unfold to_umac. do 2 eexists. split; [reflexivity|exact F]. Qed.
Lemma sound_brew c : sound (to_brew c).
Proof. intros s F. unfold to_brew. do 2 eexists. split; [reflexivity|exact F]. Qed.

Lemma fine_active s x : fine s -> Forall call_fine x -> fine (cc_set_active x s).
Proof. intros [A B C D E] H. now split. Qed.
Lemma fine_cached s x : fine s -> Forall setup_fine x -> fine (cc_set_cached x s).
Proof. intros [A B C D E] H. now split. Qed.
Lemma fine_circ s x : fine s -> mgr_fine x -> fine (cc_set_circ x s).
Proof. intros [A B C D E] H. now split. Qed.
Lemma fine_slots s x : fine s -> length x = 3%nat -> fine (cc_set_slots x s).
Proof. intros [A B C D E] H. now split. Qed.
Lemma fine_time s t : fine s -> vtime t -> fine (cc_set_dltime t s).
Proof. intros [A B C D E] H. now split. Qed.
Lemma fine_subs s x : fine s -> fine (cc_set_subs x s).
Proof. intros [A B C D E]. now split. Qed.
Lemma fine_listeners s x : fine s -> fine (cc_set_listeners x s).
Proof. intros [A B C D E]. now split. Qed.
Lemma fine_forget id s : fine s -> fine (forget_call id s).
Proof.
  intros F. unfold forget_call. apply fine_active; [apply fine_cached; [exact F|apply Forall_adel, F]|]. apply Forall_adel, F.
Qed.
Lemma release_length l o ts : length (snd (ts_release l o ts)) = length l.
Proof.
  unfold ts_release. destruct (ts_idx ts) as [i|]; [|reflexivity]. destruct (TimeslotAlloc.ts_get l i) as [e|]; [|reflexivity].
  destruct (negb (ts_owner_eqb e o)); [reflexivity|]. cbn [snd]. apply upd_length.
Qed.
Lemma fine_release ts s : fine s -> fine (release_timeslot ts s).
Proof. intros F. unfold release_timeslot. apply fine_slots; [exact F|]. rewrite release_length. apply F. Qed.

(** ** Circuits *)
Lemma mgr_set_none m ts : mgr_fine m -> (1 <= ts <= 4)%nat -> mgr_fine (cm_set_dl (ts_set (cm_dl m) ts None) m).
Proof.
  intros [A B C D E] T. split; cbn [cm_set_dl cm_dltime cm_dl cm_ul cm_next_call]; [exact A|unfold ts_set; now rewrite upd_length|exact C| |exact E].
  intros i c. unfold ts_set. rewrite nth_upd. destruct (andb _ _); [discriminate|]. apply D.
Qed.
Lemma close_fine ts m : mgr_fine m -> (1 <= ts <= 4)%nat -> exists c m', cm_close DirBoth ts m = Ok (c, m') /\ mgr_fine m'.
Proof.
  intros F T. unfold cm_close. rewrite (ts_get_ok (cm_dl m) ts None (mf_dl m F) T). cbn [bind]. do 2 eexists. split; [reflexivity|]. now apply mgr_set_none.
Qed.
Lemma take_fine m : mgr_fine m -> mgr_fine (snd (cm_take_call_id m)) /\ fst (cm_take_call_id m) < 1024.
Proof.
  intros [A B C D E]. unfold cm_take_call_id. cbv zeta. cbn [fst snd]. split; [|exact E]. split; cbn [cm_dltime cm_dl cm_ul cm_next_call]; try assumption.
  destruct (N.ltb_spec 0x3FF (cm_next_call m + 1)); lia.
Qed.
Lemma usage_fine m : mgr_fine m -> mgr_fine (snd (cm_take_usage m)).
Proof. intros [A B C D E]. unfold cm_take_usage. cbv zeta. cbn [snd]. now split. Qed.
Lemma first_free_range l : forall k i, ts_first_free k l = Some i -> (k <= i < k + length l)%nat.
Proof.
  induction l as [|o l IH]; intros k i; cbn [ts_first_free length]; [discriminate|]. destruct o.
  - intros H. apply IH in H. lia.
  - intros [= <-]. lia.
Qed.
Lemma open_fine c m : mgr_fine m -> (1 <= ci_ts c <= 4)%nat -> ci_dir c = DirBoth -> vtime (ci_created c) ->
  exists e m', cm_open DirBoth c m = Ok (e, m') /\ mgr_fine m'.
Proof.
  intros F T D V. unfold cm_open, cm_is_active. rewrite (ts_get_ok (cm_dl m) _ None (mf_dl m F) T). cbn [bind].
  rewrite (ts_get_ok (cm_ul m) (ci_ts c) None) by (exact T || (rewrite (mf_ul m F); reflexivity)). cbn [bind].
  assert (X : forall x y : bool, exists e m', (if includes_dl DirBoth && x then Ok (Some CircuitAlreadyInUse, m)
     else if includes_ul DirBoth && y then Ok (Some CircuitAlreadyInUse, m)
     else Ok (None, cm_set_dl (ts_set (cm_dl m) (ci_ts c) (Some c)) m)) = Ok (e, m') /\ mgr_fine m').
  { intros x y. destruct x; cbn [includes_dl andb]; [now exists (Some CircuitAlreadyInUse), m|]. destruct y; cbn [includes_ul andb]; [now exists (Some CircuitAlreadyInUse), m|].
    do 2 eexists. split; [reflexivity|]. destruct F as [A B C E G]. split; cbn [cm_set_dl cm_dltime cm_dl cm_ul cm_next_call]; [exact A|unfold ts_set; now rewrite upd_length|exact C| |exact G].
    intros i x. unfold ts_set. rewrite nth_upd. destruct (Nat.eqb_spec i (ci_ts c - 1)) as [->|]; cbn [andb]; [|apply E].
    destruct (Nat.ltb_spec (ci_ts c - 1) (length (cm_dl m))); [|apply E]. intros [= <-]. split; [lia|]. now split. }
  destruct (nth (ci_ts c - 1) (cm_dl m) None) as [d|]; [destruct (is_both (ci_dir d))|]; cbn [bind]; apply X.
Qed.
Lemma allocate_fine comm slots m : mgr_fine m -> length slots = 3%nat ->
  exists r m' slots', cm_allocate DirBoth comm slots OwnCmce m = Ok (r, m', slots') /\ mgr_fine m' /\ length slots' = 3%nat /\
    forall c, r = inl c -> ci_call c < 1024 /\ (2 <= ci_ts c <= 4)%nat.
Proof.
  intros F L. unfold cm_allocate, ts_allocate_any. destruct (ts_first_free 0 slots) as [i|] eqn:E.
  - apply first_free_range in E. rewrite L in E. destruct (take_fine m F) as [F1 I1]. destruct (cm_take_call_id m) as [id m1]. cbn [fst snd] in F1, I1.
    pose proof (usage_fine m1 F1) as F2. destruct (cm_take_usage m1) as [u m2]. cbn [snd] in F2. cbv zeta.
    destruct (open_fine (mk_circuit (cm_dltime m2) DirBoth (i + 2) id u comm) m2 F2) as (e & m3 & E3 & F3); [cbn [ci_ts]; lia|reflexivity|apply F2|].
    rewrite E3. cbn [bind]. do 3 eexists. split; [reflexivity|]. split; [exact F3|]. split; [now rewrite upd_length|].
    intros c. destruct e; [discriminate|]. intros [= <-]. cbn [ci_call ci_ts]. split; [exact I1|lia].
  - do 3 eexists. split; [reflexivity|]. split; [exact F|]. split; [exact L|]. intros c [=].
Qed.

(** ** Releasing *)
Section Config.
Variable cfg : cfg_route.

Lemma sound_release id cause : cause <= 23 -> sound (release_call cfg id cause).
Proof.
  intros C s F. unfold release_call. destruct (aget id (cc_cached s)) as [[p a]|] eqn:E; [|now exists s, []].
  assert (V : d_setup_valid p = true) by exact (Forall_aget _ _ _ _ (fi_cached s F) E).
  destruct (release_sent p cause (cc_dltime s) a V C) as (m & ->). cbn [bind]. destruct (aget id (cc_active s)) as [call|] eqn:E'.
  - destruct (Forall_aget _ _ _ _ (fi_active s F) E') as (_ & T & _). cbn [snd] in T.
    cbv zeta. destruct (close_fine (ac_ts call) (cc_circ s) (fi_mgr s F)) as (c & m' & -> & F'); [lia|]. cbn [bind].
    do 2 eexists. split; [reflexivity|]. apply fine_forget, fine_release, fine_circ; assumption.
  - do 2 eexists. split; [reflexivity|]. now apply fine_forget.
Qed.
Lemma sound_drop hint g : sound (drop_unlistened cfg hint g).
Proof.
  intros s F. unfold drop_unlistened. destruct (has_listener g s); [now exists s, []|].
  refine (sound_each _ _ _ s F). intros [id call] _. apply sound_andthen; [|now apply sound_release].
  destruct (ac_origin call); [exact sound_nothing|apply sound_when, sound_brew].
Qed.
Lemma sound_subscriber hg hint issi groups action : sound (subscriber_update cfg hg hint issi groups action).
Proof.
  intros s F. unfold subscriber_update. destruct action.
  - destruct (aget issi (cc_subs s)); do 2 eexists; (split; [reflexivity|]); [exact F|now apply fine_subs].
  - destruct (aget issi (cc_subs s)) as [l|]; [|now exists s, []]. refine (sound_each _ _ _ _ (fine_subs _ _ F)).
    intros g _ s1 F1. apply sound_drop. now apply fine_listeners.
  - cbv zeta. destruct (insert_groups groups _) as [e new]. do 2 eexists. split; [reflexivity|]. now apply fine_listeners, fine_subs.
  - destruct (aget issi (cc_subs s)) as [l|]; [|refine (sound_each _ _ _ _ F); intros g _; apply sound_drop].
    destruct (remove_groups groups l) as [e gone]. refine (sound_each _ _ _ _ _); [intros g _; apply sound_drop|]. now apply fine_listeners, fine_subs.
Qed.

(** ** Set-up *)
Lemma bsi_gives : gives (fun s => bsi_valid s = true) bsi_from_bitbuf.
Proof.
  unfold bsi_from_bitbuf. eapply gives_bind; [apply gives_field; lia|]; intros m Hm. eapply gives_bind; [apply gives_flag|]; intros e _.
  eapply gives_bind; [apply gives_field; lia|]; intros c Hc. cbv beta in Hm, Hc. apply gives_if; intros Z; (eapply gives_bind; [apply gives_field; lia|]); intros v Hv; cbv beta in Hv; apply gives_ret;
    unfold bsi_valid; cbn [bsi_circuit_mode bsi_comm_type bsi_speech bsi_slots some negb fito andb]; rewrite Z, (fit_of 3 _ Hm), (fit_of 2 _ Hc), (fit_of 2 _ Hv); reflexivity.
Qed.
Lemma setup_gives : gives (fun p => bsi_valid (u_setup_basic_service_information p) = true /\ u_setup_call_priority p < 16) u_setup_from_bitbuf.
Proof.
  unfold u_setup_from_bitbuf.
  eapply gives_bind; [apply gives_field; lia|]; intros x0 _. eapply gives_bind; [apply gives_guard|]; intros x1 _.
  eapply gives_bind; [apply gives_field; lia|]; intros x2 _. eapply gives_bind; [apply gives_flag|]; intros x3 _. eapply gives_bind; [apply gives_flag|]; intros x4 _.
  eapply gives_bind; [apply bsi_gives|]; intros x5 H5. eapply gives_bind; [apply gives_flag|]; intros x6 _. eapply gives_bind; [apply gives_field; lia|]; intros x7 H7.
  eapply gives_bind; [apply gives_field; lia|]; intros x8 _. eapply gives_bind; [apply gives_field; lia|]; intros x9 _.
  eapply gives_bind; [apply gives_ropt, gives_field; lia|]; intros x10 _. eapply gives_bind; [apply gives_ropt, gives_field; lia|]; intros x11 _.
  eapply gives_bind; [apply gives_ropt, gives_field; lia|]; intros x12 _. eapply gives_bind; [apply gives_flag|]; intros x13 _.
  eapply gives_bind; [apply gives_type3_generic|]; intros x14 _. eapply gives_bind; [apply gives_type3_generic|]; intros x15 _.
  eapply gives_bind; [apply gives_type3_generic|]; intros x16 _. eapply gives_bind; [apply gives_type3_generic|]; intros x17 _.
  eapply gives_bind; [apply gives_trailing|]; intros x18 _. apply gives_ret. now split.
Qed.

Lemma sound_setup i p : ad_ssi (mi_addr i) < 16777216 -> bsi_valid (u_setup_basic_service_information p) = true -> u_setup_call_priority p < 16 -> sound (rx_u_setup cfg i p).
Proof.
  intros A B P s F. unfold rx_u_setup. destruct (negb (feature_check p)); [now exists s, []|]. destruct (u_setup_called_party_ssi p) as [dest|]; [|now exists s, []].
  destruct (negb (has_listener dest s)); [now exists s, []|].
  destruct (allocate_fine (bsi_comm_type (u_setup_basic_service_information p)) (cc_slots s) (cc_circ s) (fi_mgr s F) (fi_slots s F)) as (r & m & sl & -> & FM & L & R).
  cbn [bind]. cbv zeta. destruct r as [c|e]; [|do 2 eexists; split; [reflexivity|now apply fine_slots, L; apply fine_circ]].
  destruct (R c eq_refl) as [I T]. destruct (proceeding_sent i p (ci_call c) I) as (m1 & ->). cbn [bind]. destruct (connect_sent i p c I ltac:(lia)) as (m2 & ->). cbn [bind].
  assert (V : d_setup_valid (local_setup i p (ci_call c)) = true) by (unfold local_setup; now apply setup_valid).
  destruct (setup_sent (local_setup i p (ci_call c)) (ci_usage c) (ci_ts c) (mi_dltime i) (gssi_addr dest) false V ltac:(lia)) as (m3 & ->). cbn [bind].
  do 2 eexists. split; [reflexivity|].
  assert (F1 : fine (cc_set_slots sl (cc_set_circ m s))) by (apply fine_slots; [now apply fine_circ|exact L]).
  assert (F2 : fine (cc_set_cached (aset (ci_call c) (local_setup i p (ci_call c), gssi_addr dest) (cc_cached (cc_set_slots sl (cc_set_circ m s)))) (cc_set_slots sl (cc_set_circ m s)))).
  { apply fine_cached; [exact F1|]. apply Forall_aset; [exact V|apply F1]. }
  apply fine_active; [exact F2|]. apply Forall_aset; [split; [exact I|split; [exact T|exact Logic.I]]|apply F2].
Qed.

(** ** Floor control *)
Lemma sound_tx_ceased p : sound (rx_u_tx_ceased cfg p).
Proof.
  intros s F. unfold rx_u_tx_ceased. cbv zeta. destruct (aget (u_tx_ceased_call_identifier p) (cc_active s)) as [call|] eqn:E; [|now exists s, []].
  destruct (Forall_aget _ _ _ _ (fi_active s F) E) as (I & T & _). cbn [fst snd] in I, T.
  destruct (negb (ac_tx call) && present (ac_hang call)); [now exists s, []|].
  match goal with |- context [cc_set_active ?x s] => assert (F1 : fine (cc_set_active x s)) end.
  { apply fine_active; [exact F|]. apply Forall_aset; [|apply F]. split; [exact I|]. split; [exact T|apply F]. }
  match goal with |- context [match ?o with Some _ => _ | None => _ end] => destruct o as [[d a]|] end; [|do 2 eexists; split; [reflexivity|exact F1]].
  match goal with |- context [stealing_msg ?n (tx_ceased_pdu ?id) ?t ?a ?ts] => destruct (ceased_sent n id t a ts I ltac:(lia)) as (m & ->) end. cbn [bind].
  do 2 eexists. split; [reflexivity|exact F1].
Qed.
Lemma sound_send_granted id w g ts : id < 1024 -> w < 16777216 -> (1 <= ts <= 4)%nat -> sound (send_tx_granted id w g ts).
Proof.
  intros I U T s F. unfold send_tx_granted. destruct (granted_sent 30 id GrantedToOtherUser w (cc_dltime s) (gssi_addr g) ts I eq_refl U T) as (m & ->). cbn [bind].
  do 2 eexists. split; [reflexivity|exact F].
Qed.
Lemma sound_send_ceased id g ts : id < 1024 -> (1 <= ts <= 4)%nat -> sound (send_tx_ceased id g ts).
Proof.
  intros I T s F. unfold send_tx_ceased. destruct (ceased_sent 30 id (cc_dltime s) (gssi_addr g) ts I T) as (m & ->). cbn [bind].
  do 2 eexists. split; [reflexivity|exact F].
Qed.
Lemma sound_tx_demand i p : ad_ssi (mi_addr i) < 16777216 -> sound (rx_u_tx_demand cfg i p).
Proof.
  intros A s F. unfold rx_u_tx_demand. cbv zeta. destruct (aget (u_tx_demand_call_identifier p) (cc_active s)) as [call|] eqn:E; [|now exists s, []].
  destruct (Forall_aget _ _ _ _ (fi_active s F) E) as (I & T & _). cbn [fst snd] in I, T.
  destruct (ac_tx call); [now exists s, []|].
  match goal with |- context [cc_set_active ?x s] => assert (F1 : fine (cc_set_active x s)) end.
  { apply fine_active; [exact F|]. apply Forall_aset; [|apply F]. split; [exact I|]. split; [exact T|exact Logic.I]. }
  match goal with |- context [match ?o with Some _ => _ | None => _ end] => destruct o as [[d a]|] end; [|do 2 eexists; split; [reflexivity|exact F1]].
  match goal with |- context [stealing_msg ?n (tx_granted_pdu ?id ?g ?w) ?t ?a ?ts] => destruct (granted_sent n id g w t a ts I eq_refl A ltac:(lia)) as (m & ->) end. cbn [bind].
  match goal with |- context [send_tx_granted ?id ?w ?g ?ts ?s1] => destruct (sound_send_granted id w g ts I A ltac:(lia) s1 F1) as (s2 & q & -> & F2) end. cbn [bind].
  do 2 eexists. split; [reflexivity|exact F2].
Qed.
Lemma sound_disconnect i p : sound (rx_u_disconnect cfg i p).
Proof.
  intros s F. unfold rx_u_disconnect. cbv zeta. destruct (aget (u_disconnect_call_identifier p) (cc_active s)) as [call|] eqn:E; [|now exists s, []].
  destruct (Forall_aget _ _ _ _ (fi_active s F) E) as (I & T & _). cbn [fst snd] in I, T.
  match goal with |- context [if ?c then _ else _] => destruct c end; [now apply sound_release|].
  rewrite (encode_ok 32 (PdRelease _) _ (proj1 (d_release_ok _ (release_valid _ RequestedServiceNotAvailable (id_fit _ I) ltac:(discriminate))))). cbn [bind].
  do 2 eexists. split; [reflexivity|exact F].
Qed.

Lemma sound_parsed {A} (r : reader A) i k (P : A -> Prop) : wf (mi_sdu i) -> from (remaining (mi_sdu i)) 0 r -> gives P r -> (forall p, P p -> sound (k p)) ->
  sound (parsed r i k).
Proof.
  intros W R G K s F. unfold parsed. destruct (from_ok r _ W R) as [(p & b & E)|(e & E)]; rewrite E; [|now exists s, []].
  apply K; [exact (proj1 (G _ _ _ W E))|exact F].
Qed.
Lemma parsed_any {A} (r : reader A) i k : wf (mi_sdu i) -> from (remaining (mi_sdu i)) 0 r -> (forall p, sound (k p)) -> sound (parsed r i k).
Proof.
  intros W R K s F. unfold parsed. destruct (from_ok r _ W R) as [(p & b & E)|(e & E)]; rewrite E; [|now exists s, []]. now apply K.
Qed.
Lemma sound_uplink i : wf (mi_sdu i) -> ad_ssi (mi_addr i) < 16777216 -> ~ hostile_cmce (remaining (mi_sdu i)) -> sound (cc_rx_ind cfg i).
Proof.
  intros W A H s F. unfold cc_rx_ind, route_xx_deliver. rewrite peek_bits_spec by (assumption || lia).
  match goal with |- context [if ?c then Some _ else None] => destruct c end; cbn [bind]; [|now exists s, []].
  set (ty := bits_val _). clearbody ty. destruct (memN ty _) eqn:M; [|now exists s, []].
  destruct (ul_type_known ty) eqn:K; cbn [negb]; [|now exists s, []].
  destruct (N.eqb_spec ty Ul_USetup) as [|N1]; [refine (sound_parsed _ _ _ _ W (setup_safe _ H) setup_gives _ s F); intros p [B P]; now apply sound_setup|].
  destruct (N.eqb_spec ty Ul_UTxCeased) as [|N2]; [refine (parsed_any _ _ _ W (tx_ceased_safe _ H) _ s F); intros p; apply sound_tx_ceased|].
  destruct (N.eqb_spec ty Ul_UTxDemand) as [|N3]; [refine (parsed_any _ _ _ W (tx_demand_safe _ H) _ s F); intros p; now apply sound_tx_demand|].
  destruct (N.eqb_spec ty Ul_URelease) as [|N4]; [refine (parsed_any _ _ _ W (release_safe _ H) _ s F); intros p; now apply sound_release|].
  destruct (N.eqb_spec ty Ul_UDisconnect) as [|N5]; [refine (parsed_any _ _ _ W (disconnect_safe _ H) _ s F); intros p; now apply sound_disconnect|].
  assert (X : memN ty [Ul_UAlert; Ul_UConnect; Ul_UInfo; Ul_UStatus; Ul_UCallRestore] = true).
  { clear - M N1 N2 N3 N4 N5. unfold memN in *. cbn [existsb] in *. apply N.eqb_neq in N1, N2, N3, N4, N5. rewrite N1, N2, N3, N4, N5 in M.
    destruct (ty =? Ul_UAlert), (ty =? Ul_UConnect), (ty =? Ul_UInfo), (ty =? Ul_UStatus), (ty =? Ul_UCallRestore); try reflexivity. exact M. }
  rewrite X. now exists s, [].
Qed.

(** ** Network calls *)
Lemma sound_start hint uuid source dest : source < 16777216 -> brew_gssi_routable cfg dest = true -> sound (rx_network_call_start cfg hint uuid source dest).
Proof.
  intros A R s F. unfold rx_network_call_start. rewrite R. cbn [assert bind].
  destruct (negb (has_listener dest s)); [refine (sound_andthen _ _ _ _ s F); [apply sound_drop|apply sound_brew]|].
  destruct (find _ _) as [[id call]|] eqn:E.
  - apply (find_from call_fine) in E; [|apply F]. destruct E as (I & T & _). cbn [fst snd] in I, T.
    destruct (ac_tx call); [now apply sound_brew|]. cbv zeta. refine (sound_andthen _ _ _ _ _ _).
    + apply sound_send_granted; [exact I|exact A|lia].
    + apply sound_andthen; [apply sound_umac|apply sound_brew].
    + apply fine_active; [exact F|]. apply Forall_aset; [|apply F]. split; [exact I|]. split; [exact T|exact Logic.I].
  - destruct (allocate_fine P2Mp (cc_slots s) (cc_circ s) (fi_mgr s F) (fi_slots s F)) as (r & m & sl & -> & FM & L & Q).
    cbn [bind]. cbv zeta. destruct r as [c|e]; [|do 2 eexists; split; [reflexivity|now apply fine_slots, L; apply fine_circ]].
    destruct (Q c eq_refl) as [I T]. assert (V : d_setup_valid (network_setup (ci_call c) source) = true) by (unfold network_setup; now apply setup_valid).
    match goal with |- context [setup_msg ?p ?u ?ts ?t ?a ?r] => destruct (setup_sent p u ts t a r V ltac:(lia)) as (m3 & ->) end. cbn [bind].
    match goal with |- context [connect_group_msg ?id ?t ?a] => destruct (connect_group_sent id t a I) as (m4 & ->) end. cbn [bind].
    do 2 eexists. split; [reflexivity|].
    assert (F1 : fine (cc_set_slots sl (cc_set_circ m s))) by (apply fine_slots; [now apply fine_circ|exact L]).
    assert (F2 : fine (cc_set_cached (aset (ci_call c) (network_setup (ci_call c) source, gssi_addr dest) (cc_cached (cc_set_slots sl (cc_set_circ m s)))) (cc_set_slots sl (cc_set_circ m s)))).
    { apply fine_cached; [exact F1|]. apply Forall_aset; [exact V|apply F1]. }
    apply fine_active; [exact F2|]. apply Forall_aset; [split; [exact I|split; [exact T|exact Logic.I]]|apply F2].
Qed.
Lemma sound_end hint uuid : sound (rx_network_call_end cfg hint uuid).
Proof.
  intros s F. unfold rx_network_call_end. destruct (find _ _) as [[id call]|] eqn:E; [|now exists s, []].
  apply (find_from call_fine) in E; [|apply F]. destruct E as (I & T & _). cbn [fst snd] in I, T.
  destruct (ac_tx call); [|now apply sound_release]. cbv zeta. refine (sound_andthen _ _ _ _ _ _); [apply sound_send_ceased; [exact I|lia]|apply sound_umac|].
  apply fine_active; [exact F|]. apply Forall_aset; [|apply F]. split; [exact I|]. split; [exact T|apply F].
Qed.
Lemma sound_inactivity hint ts : sound (ul_inactivity cfg hint ts).
Proof.
  intros s F. unfold ul_inactivity. destruct (find _ _) as [[id call]|] eqn:E; [|now exists s, []].
  pose proof (find_some _ _ E) as [_ B]. apply (find_from call_fine) in E; [|apply F]. destruct E as (I & T & _). cbn [fst snd] in I, T, B.
  apply andb_true_iff in B. destruct B as [B _]. apply Nat.eqb_eq in B. subst ts.
  cbv zeta. refine (sound_andthen _ _ _ _ _ _).
  - apply sound_send_ceased; [exact I|lia].
  - apply sound_andthen; [apply sound_umac|apply sound_when, sound_brew].
  - apply fine_active; [exact F|]. apply Forall_aset; [|apply F]. split; [exact I|]. split; [exact T|apply F].
Qed.

(** ** Time *)
Lemma age_ok x now : vtime x -> vtime now -> exists a, age x now = Ok a.
Proof. intros X Y. destruct (diff_spec now x Y X) as (d & E & _). now exists d. Qed.
Lemma hang_ok now l : vtime now -> Forall call_fine l -> exists r, hang_expired now l = Ok r.
Proof.
  intros V. induction 1 as [|[id call] t (_ & _ & H) Ht IH]; cbn [hang_expired]; [now eexists|]. cbn [snd] in H. destruct IH as (r & ->).
  destruct (ac_hang call) as [h|]; [destruct (age_ok h now H V) as (a & ->)|]; cbn [bind]; now eexists.
Qed.
Lemma sound_hangtime hint : sound (check_hangtime cfg hint).
Proof.
  intros s F. unfold check_hangtime. destruct (hang_ok (cc_dltime s) (arrange hint (cc_active s)) (fi_time s F)) as (l & ->); [apply Forall_arrange, F|]. cbn [bind].
  refine (sound_each _ _ _ s F). intros id _. now apply sound_release.
Qed.

Definition circ_at (k : nat) (l : list (option circuit)) : Prop :=
  forall i c, nth i l None = Some c -> ci_ts c = (k + i)%nat /\ ci_dir c = DirBoth /\ vtime (ci_created c).
Lemma circ_tail k o l : circ_at k (o :: l) -> circ_at (S k) l.
Proof. intros H i c E. destruct (H (S i) c E) as (A & B). split; [lia|exact B]. Qed.
Lemma expired_ok now l : vtime now -> forall k, circ_at k l -> exists r, expired_of now l = Ok r /\
  NoDup (map ci_ts r) /\ forall c, In c r -> (k <= ci_ts c)%nat /\ nth (ci_ts c - k) l None = Some c /\ ci_dir c = DirBoth.
Proof.
  intros V. induction l as [|o l IH]; intros k H; cbn [expired_of]; [exists []; split; [reflexivity|split; [constructor|intros c []]]|].
  destruct (IH (S k) (circ_tail _ _ _ H)) as (r & E & ND & R).
  assert (R' : forall c, In c r -> (k <= ci_ts c)%nat /\ nth (ci_ts c - k) (o :: l) None = Some c /\ ci_dir c = DirBoth).
  { intros c Hc. destruct (R c Hc) as (A & B & C). split; [lia|]. split; [|exact C]. replace (ci_ts c - k)%nat with (S (ci_ts c - S k)) by lia. exact B. }
  destruct o as [c|]; [|exists r; auto]. destruct (H 0%nat c eq_refl) as (T & D & W). destruct (age_ok _ _ W V) as (a & ->). cbn [bind]. rewrite E. cbn [bind].
  destruct (_ <? a)%Z; [|exists r; auto]. exists (c :: r). split; [reflexivity|]. split.
  - cbn [map]. constructor; [|exact ND]. intros X. apply in_map_iff in X. destruct X as (c' & E' & X). apply R in X. lia.
  - intros c' [<-|X]; [|now apply R']. split; [lia|]. replace (ci_ts c - k)%nat with 0%nat by lia. split; [reflexivity|exact D].
Qed.
Lemma close_all_ok l : forall m, mgr_fine m -> NoDup (map ci_ts l) -> (forall c, In c l -> nth (ci_ts c - 1) (cm_dl m) None = Some c) ->
  exists cmds m', close_all l m = Ok (cmds, m') /\ mgr_fine m' /\ cm_dltime m' = cm_dltime m /\ Forall (fun c => match c with SendClose _ _ => True | _ => False end) cmds.
Proof.
  induction l as [|c l IH]; intros m F ND H; cbn [close_all]; [exists [], m; auto|].
  pose proof (H c (or_introl eq_refl)) as E. destruct (mf_circ m F _ _ E) as (T & D & _). rewrite D.
  assert (T4 : (1 <= ci_ts c <= 4)%nat).
  { split; [lia|]. destruct (le_lt_dec 4 (ci_ts c - 1)) as [X|]; [|lia]. rewrite nth_overflow in E by (rewrite (mf_dl m F); exact X). discriminate E. }
  unfold cm_close. rewrite (ts_get_ok (cm_dl m) (ci_ts c) None (mf_dl m F) T4), E. cbn [bind unwrap].
  pose proof (mgr_set_none m (ci_ts c) F T4) as F1. cbn [map] in ND. apply NoDup_cons_iff in ND. destruct ND as [N1 N2].
  destruct (IH _ F1 N2) as (cmds & m' & -> & F' & E' & A).
  { intros c' X. cbn [cm_set_dl cm_dl]. unfold ts_set. rewrite nth_upd.
    destruct (Nat.eqb_spec (ci_ts c' - 1) (ci_ts c - 1)) as [Y|]; cbn [andb]; [|apply H; now right].
    exfalso. apply N1. apply in_map_iff. exists c'. split; [|exact X]. pose proof (H c' (or_intror X)) as E2. destruct (mf_circ m F _ _ E2) as (T' & _). lia. }
  cbn [bind]. do 2 eexists. split; [reflexivity|]. split; [exact F'|]. split; [exact E'|]. constructor; [exact Logic.I|exact A].
Qed.
Definition task_fine (c : circuit_cmd) : Prop := match c with SendDSetup _ _ ts => (1 <= ts <= 4)%nat | SendClose _ _ => True end.
Lemma late_ok now l : vtime now -> forall k, (1 <= k)%nat -> (k + length l <= 5)%nat -> circ_at k l -> exists r, late_entries now l = Ok r /\ Forall task_fine r.
Proof.
  intros V. induction l as [|o l IH]; intros k K L H; cbn [late_entries]; [now exists []|]. cbn [length] in L.
  destruct (IH (S k) ltac:(lia) ltac:(lia) (circ_tail _ _ _ H)) as (r & E & R). destruct o as [c|]; [|now exists r].
  destruct (H 0%nat c eq_refl) as (T & D & W). destruct (age_ok _ _ W V) as (a & ->). cbn [bind]. rewrite E. cbn [bind].
  assert (X : Forall task_fine (SendDSetup (ci_call c) (ci_usage c) (ci_ts c) :: r)) by (constructor; [cbn [task_fine]; lia|exact R]).
  destruct (_ <? _)%Z; [|destruct (_ =? _)%Z]; eexists; (split; [reflexivity|assumption]).
Qed.
Lemma circ_at_dl m : mgr_fine m -> circ_at 1 (cm_dl m).
Proof. intros F i c E. exact (mf_circ m F i c E). Qed.
Lemma tick_ok t m : vtime t -> mgr_fine m -> exists tasks m', cm_tick t m = Ok (tasks, m') /\ mgr_fine m' /\ Forall task_fine tasks.
Proof.
  intros V F. unfold cm_tick. cbv zeta. assert (F1 : mgr_fine (cm_set_time t m)) by (destruct F; now split).
  destruct (tm_t t =? 1)%Z; [|do 2 eexists; split; [reflexivity|split; [exact F1|constructor]]].
  generalize dependent (cm_set_time t m). intros m1 F1. unfold cm_close_expired.
  destruct (expired_ok (cm_dltime m1) (cm_dl m1) (mf_time m1 F1) 1 (circ_at_dl m1 F1)) as (d & -> & ND & R). cbn [bind].
  rewrite (mf_ul m1 F1). cbn [repeat expired_of bind]. rewrite app_nil_r.
  destruct (close_all_ok d m1 F1 ND (fun c Hc => proj1 (proj2 (R c Hc)))) as (cmds & m2 & -> & F2 & _ & A). cbn [bind].
  destruct (late_ok t (cm_dl m2) V 1 ltac:(lia) ltac:(rewrite (mf_dl m2 F2); lia) (circ_at_dl m2 F2)) as (r & -> & B). cbn [bind].
  do 2 eexists. split; [reflexivity|]. split; [exact F2|]. apply Forall_app. split; [|exact B].
  eapply Forall_impl; [|exact A]. intros [|]; [intros []|intros _; exact Logic.I].
Qed.
Lemma sound_task c : task_fine c -> sound (do_task c).
Proof.
  intros T s F. destruct c as [id u ts|id c]; cbn [task_fine] in T; unfold do_task.
  - destruct (aget id (cc_active s)) as [call|].
    + destruct (present (ac_hang call)); [now exists s, []|]. destruct (aget id (cc_cached s)) as [[p a]|] eqn:E; [|now exists s, []]. cbv zeta.
      assert (V : d_setup_valid p = true) by exact (Forall_aget _ _ _ _ (fi_cached s F) E).
      assert (V' : d_setup_valid (set_grant (if ac_tx call then GrantedToOtherUser else NotGranted) p) = true) by (apply grant_valid; [now destruct (ac_tx call)|exact V]).
      match goal with |- context [setup_msg ?p ?u ?ts ?t ?a ?r] => destruct (setup_sent p u ts t a r V' T) as (m3 & ->) end. cbn [bind].
      do 2 eexists. split; [reflexivity|]. apply fine_cached; [exact F|]. apply Forall_aset; [exact V'|apply F].
    + destruct (aget id (cc_cached s)) as [[p a]|] eqn:E; [|now exists s, []].
      assert (V : d_setup_valid p = true) by exact (Forall_aget _ _ _ _ (fi_cached s F) E).
      match goal with |- context [setup_msg ?p ?u ?ts ?t ?a ?r] => destruct (setup_sent p u ts t a r V T) as (m3 & ->) end. cbn [bind].
      do 2 eexists. split; [reflexivity|exact F].
  - assert (X : exists q, match aget id (cc_cached s) with
       | Some (p, a) => m <- release_msg p ExpiryOfTimer (cc_dltime s) a ;; Ok [m] | None => Ok [] end = Ok q).
    { destruct (aget id (cc_cached s)) as [[p a]|] eqn:E; [|now eexists]. assert (V : d_setup_valid p = true) by exact (Forall_aget _ _ _ _ (fi_cached s F) E).
      destruct (release_sent p ExpiryOfTimer (cc_dltime s) a V ltac:(discriminate)) as (m & ->). cbn [bind]. now eexists. }
    destruct X as (q & ->). cbn [bind]. do 2 eexists. split; [reflexivity|]. now apply fine_release, fine_forget.
Qed.
Lemma sound_tick hint t : vtime t -> sound (cc_tick cfg hint t).
Proof.
  intros V s F. unfold cc_tick. refine (sound_andthen _ _ (sound_hangtime hint) _ _ (fine_time s t F V)). clear s F.
  intros s F. destruct (tick_ok t (cc_circ s) V (fi_mgr s F)) as (tasks & m & -> & FM & A). cbn [bind].
  refine (sound_each _ _ _ _ (fine_circ s m F FM)). intros c Hc. apply sound_task. exact (proj1 (Forall_forall _ _) A c Hc).
Qed.

Lemma sound_step e : acceptable cfg e -> sound (cc_step cfg e).
Proof.
  destruct e as [hint t|i|hint c|hg hint issi groups action]; cbn [acceptable cc_step]; intros A.
  - now apply sound_tick.
  - destruct A as (W & A & H). now apply sound_uplink.
  - destruct c; cbn [rx_call_control]; try exact sound_nothing; [|apply sound_end|apply sound_inactivity]. destruct A as [A R]. now apply sound_start.
  - apply sound_subscriber.
Qed.
Lemma serves_fine s : serves cfg s -> fine s.
Proof.
  induction 1 as [|s e s' q H IH A E]; [exact fine_new|]. destruct (sound_step e A s IH) as (s1 & q1 & E1 & F1). rewrite E1 in E. injection E as <- _. exact F1.
Qed.
Lemma call_control_survives : forall s e, serves cfg s -> acceptable cfg e -> exists s' q, cc_step cfg e s = Ok (s', q).
Proof. intros s e H A. destruct (sound_step e A s (serves_fine s H)) as (s' & q & E & _). now exists s', q. Qed.
End Config.
