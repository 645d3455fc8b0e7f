(** Proofs about short data. *)
From Verif Require Import Base BitsLib BitBuffer BitBufferProofs BitBufferOps Codec CodecProofs TypedFields TypedFieldsProofs
  TdmaTime MacFields CmceFields CmcePdus PduSpec PduProofs CmceSpec CmceFieldsProofs CmceProofs ReaderGives LlcBits
  BrewRoute Registry RegistrySpec RegistryProofs CallControl Sds SdsSpec.
Open Scope N_scope.

(** ** What a reader of user data returns *)
Definition pad_ok (j : nat) (v : N) : bool :=
  if v <? 2 ^ N.of_nat j then let x := shl8 (to_u8 v) (8 - j) in fit 8 x && forallb negb (skipn j (bits_of 8 x)) else true.
Lemma pad_ok_all : forallb (fun j => forallb (fun v => pad_ok j (N.of_nat v)) (seq 0 256)) (seq 0 9) = true.
Proof. vm_compute. reflexivity. Qed.
Lemma pad j v : (j <= 8)%nat -> v < 2 ^ N.of_nat j ->
  fit 8 (shl8 (to_u8 v) (8 - j)) = true /\ forallb negb (skipn j (bits_of 8 (shl8 (to_u8 v) (8 - j)))) = true.
Proof.
  intros H L. assert (2 ^ N.of_nat j <= 2 ^ 8) as B by (apply N.pow_le_mono_r; lia). change (2 ^ 8) with 256 in B.
  pose proof pad_ok_all as A. rewrite forallb_forall in A. specialize (A j ltac:(apply in_seq; lia)).
  rewrite forallb_forall in A. specialize (A (N.to_nat v) ltac:(apply in_seq; lia)). rewrite N2Nat.id in A.
  unfold pad_ok in A. destruct (N.ltb_spec v (2 ^ N.of_nat j)); [|lia]. cbv zeta in A. now apply andb_true_iff in A.
Qed.

Lemma slice_loop_gives : forall k n b acc r b', wf b -> read_slice_loop k n b acc = Ok (Some r, b') ->
  exists data, r = acc ++ data /\ length data = k /\ forallb (fit 8) data = true /\ forallb negb (skipn n (bytes_bits data)) = true /\ wf b'.
Proof.
  induction k as [|k IH]; intros n b acc r b' W E; cbn [read_slice_loop] in E.
  - injection E as <- <-. exists []. rewrite app_nil_r. change (bytes_bits []) with (@nil bool). rewrite skipn_nil. auto.
  - set (j := Nat.min n 8) in *. rewrite read_bits_opt_spec in E by (assumption || (subst j; lia)).
    destruct (Nat.leb_spec j (length (remaining b))) as [Lj|]; [|discriminate E]. cbn [bind] in E.
    apply IH in E; [|now apply wf_adv]. destruct E as (data & -> & L & F & Z & W').
    assert (bits_val (firstn j (remaining b)) < 2 ^ N.of_nat j) as B.
    { pose proof (bits_val_bound (firstn j (remaining b))) as B. rewrite firstn_length, Nat.min_l in B by lia. exact B. }
    destruct (pad j _ ltac:(subst j; lia) B) as [P1 P2]. set (x := shl8 _ _) in *. clearbody x.
    exists (x :: data). rewrite <- app_assoc. split; [reflexivity|]. cbn [length forallb]. split; [lia|]. split; [now rewrite P1|]. split; [|exact W'].
    rewrite bytes_bits_cons, skipn_app, bits_of_length, forallb_app.
    replace (n - 8)%nat with (n - j)%nat by (subst j; lia). rewrite Z, andb_true_r.
    destruct (Nat.le_ge_cases n 8); [replace n with j by (subst j; lia); exact P2|]. rewrite skipn_all2; [reflexivity|rewrite bits_of_length; lia].
Qed.
Lemma gives_sds : gives (fun d => sds_valid d = true) sds_from_bitbuf.
Proof.
  unfold sds_from_bitbuf. eapply gives_bind; [apply gives_field; lia|]. intros ty _. cbv beta.
  apply gives_if; intros _; [eapply gives_bind; [apply gives_field; lia|]; intros v Hv; apply gives_ret; unfold sds_valid, fit; now apply N.ltb_lt|].
  apply gives_if; intros _; [eapply gives_bind; [apply gives_field; lia|]; intros v Hv; apply gives_ret; unfold sds_valid, fit; now apply N.ltb_lt|].
  apply gives_if; intros _; [eapply gives_bind; [apply gives_field; lia|]; intros v Hv; apply gives_ret; unfold sds_valid, fit; now apply N.ltb_lt|].
  apply gives_if; intros _; [|intros b x b' W E; discriminate E].
  eapply gives_bind; [apply gives_field; lia|]. intros n Hn. cbv beta zeta in *.
  intros b d b' W E. unfold rbind in E. unfold read_bits_into_slice in E. rewrite ceil8, Nat.leb_refl in E. cbn [assert bind] in E.
  destruct (read_slice_loop _ _ b []) as [[[data|] b1]| |] eqn:R; [|discriminate E..]. cbn [bind fst snd] in E. injection E as <- <-.
  apply slice_loop_gives in R; [|exact W]. destruct R as (dd & -> & L & F & Z & W'). split; [|exact W']. cbn [app sds_valid].
  rewrite ceil8, L, Nat.eqb_refl, F, Z. unfold fit. apply N.ltb_lt in Hn. now rewrite Hn.
Qed.

Lemma valid_sendable d : sds_valid d = true -> sendable d = true.
Proof.
  destruct d as [v|v|v|n data]; cbn [sds_valid sendable]; auto. rewrite !andb_true_iff. intros [[[A B] C] _]. apply Nat.eqb_eq in B. rewrite ceil8 in B.
  repeat split; [exact A| |exact C]. apply Nat.leb_le. rewrite B. pose proof (Nat.div_mod (N.to_nat n + 7) 8). pose proof (Nat.mod_upper_bound (N.to_nat n + 7) 8). lia.
Qed.

Lemma send_writes d : sendable d = true -> writes (sds_to_bitbuf d) (sds_bits d).
Proof.
  intros V. destruct d as [v|v|v|n data]; try (apply sds_writes; exact V). unfold sds_to_bitbuf. cbn [sendable sds_bits sds_type_identifier] in *.
  rewrite !andb_true_iff in V. destruct V as [[V1 V2] V3]. apply Nat.leb_le in V2.
  apply w_num; [lia|reflexivity|]. apply w_num; [lia|exact V1|]. cbv zeta.
  set (q := N.to_nat (n / 8)). assert (q = N.to_nat n / 8)%nat as Eq by (subst q; rewrite N2Nat.inj_div; reflexivity). clearbody q.
  pose proof (N.mod_lt n 8 ltac:(lia)) as Rb. set (r := n mod 8) in *.
  assert (N.to_nat r = N.to_nat n mod 8)%nat as Er by (subst r; rewrite N2Nat.inj_mod; reflexivity).
  assert (N.to_nat n = 8 * q + N.to_nat r)%nat as En by (rewrite Er, Eq; apply Nat.div_mod; lia).
  clearbody r.
  destruct (N.ltb_spec 0 r) as [Rp|Rz].
  - destruct (bytes_bits_split data (N.to_nat n)) as [E|[E|E]]; [|lia|rewrite <- Eq in E; lia].
    rewrite E, <- Eq, <- Er. apply writes_then; [exact (write_bytes_writes data V3 q 0 ltac:(lia))|].
    rewrite (nth_error_nth' data 0) by lia.
    rewrite <- byte_prefix by lia. replace (N.of_nat (8 - N.to_nat r)) with (8 - r) by lia. apply writes_field; [lia|].
    replace (8 - r) with (N.of_nat (8 - N.to_nat r)) by lia. apply byte_prefix_fit; [lia|].
    rewrite forallb_forall in V3. apply (fit_lt 8). apply V3. apply nth_In. lia.
  - assert (firstn (N.to_nat n) (bytes_bits data) = bytes_bits (firstn q data)) as E.
    { replace (N.to_nat n) with (8 * q)%nat by lia. clear. revert q. induction data as [|x data IH]; intros [|q]; [reflexivity..|].
      cbn [firstn]. rewrite !bytes_bits_cons, firstn_app, bits_of_length, firstn_all2 by (rewrite bits_of_length; lia).
      replace (8 * S q - 8)%nat with (8 * q)%nat by lia. now rewrite IH. }
    rewrite E. rewrite <- (app_nil_r (bytes_bits _)). apply writes_then; [exact (write_bytes_writes data V3 q 0 ltac:(lia))|apply writes_ret].
Qed.

(** ** Sending *)
Lemma send_ok n w l k : writes w l -> exists sdu, sds_send n w k = Ok [k sdu] /\ wf sdu /\ remaining sdu = l.
Proof.
  intros H. unfold sds_send. destruct (H (bb_new_autoexpand n) (wf_new_autoexpand n)) as (b & E & Wr); [now left|]. rewrite E.
  apply wrote_fresh in Wr. destruct Wr as (W & Wd & _). destruct (seek0 b W) as (b' & E' & W' & _ & R). rewrite E'. cbn [bind].
  exists b'. split; [reflexivity|]. split; [exact W'|]. now rewrite R.
Qed.
Lemma from_to_writes source data : fit 24 source = true -> sendable data = true -> writes (d_sds_data_to_bitbuf (from_to source data)) (d_sds_data_wire (from_to source data)).
Proof.
  intros S V. unfold d_sds_data_to_bitbuf, d_sds_data_wire, from_to.
  cbn [d_sds_data_calling_party_type_identifier d_sds_data_calling_party_address_ssi d_sds_data_calling_party_extension d_sds_data_user_defined_data d_sds_data_external_subscriber_number d_sds_data_dm_ms_address].
  apply w_num; [lia|reflexivity|]. apply w_num; [lia|reflexivity|]. apply (w_cond 24 (Some source)); [lia|exact S|]. apply (w_cond 24 None); [lia|reflexivity|].
  apply writes_then; [now apply send_writes|]. cbv zeta. apply w_options; [reflexivity|]. intros H; discriminate H.
Qed.
Lemma status_writes source st : fit 24 source = true -> pcs_valid st = true -> writes (d_status_to_bitbuf (status_from source st)) (d_status_wire (status_from source st)).
Proof. intros S V. apply d_status_ok. unfold d_status_valid, status_from.
  cbn [d_status_calling_party_type_identifier d_status_calling_party_address_ssi d_status_calling_party_extension d_status_pre_coded_status d_status_external_subscriber_number d_status_dm_ms_address fito].
  rewrite S, V. reflexivity. Qed.

Lemma gives_pcs v : v < 65536 -> gives (fun p => pcs_valid p = true) (rlift (pcs_from_u16 v)).
Proof.
  intros H. eapply gives_weaken; [|apply gives_lift]. intros p E. unfold pcs_from_u16 in E.
  destruct (N.eqb_spec v 0); [injection E as <-; reflexivity|]. destruct (N.leb_spec v 31742).
  { injection E as <-. cbn [pcs_valid]. apply andb_true_iff. split; [apply N.leb_le|apply N.ltb_lt]; lia. }
  destruct (N.leb_spec v 32767).
  - unfold ssr_from_u16 in E. destruct (N.shiftr v 10 =? 31); [|discriminate E]. injection E as <-. cbn [pcs_valid ssr_type ssr_reference]. unfold fit.
    apply andb_true_iff. split; apply N.ltb_lt.
    + change 3 with (N.ones 2). rewrite N.land_ones. apply N.mod_lt. discriminate.
    + change 255 with (N.ones 8). rewrite N.land_ones. apply N.mod_lt. discriminate.
  - injection E as <-. cbn [pcs_valid]. apply andb_true_iff. split; [apply N.leb_le; lia|]. unfold fit. apply N.ltb_lt. exact H.
Qed.

Lemma gives_u_sds : gives (fun p => sds_valid (u_sds_data_user_defined_data p) = true) u_sds_data_from_bitbuf.
Proof.
  unfold u_sds_data_from_bitbuf.
  eapply gives_bind; [apply gives_field; lia|]; intros x0 _. eapply gives_bind; [apply gives_guard|]; intros x1 _.
  eapply gives_bind; [apply gives_field; lia|]; intros x2 _. eapply gives_bind; [apply gives_field; lia|]; intros x3 _.
  eapply gives_bind; [apply gives_ropt, gives_field; lia|]; intros x4 _. eapply gives_bind; [apply gives_ropt, gives_field; lia|]; intros x5 _.
  eapply gives_bind; [apply gives_ropt, gives_field; lia|]; intros x6 _. eapply gives_bind; [apply gives_sds|]; intros x7 H7.
  eapply gives_bind; [apply gives_flag|]; intros x8 _. eapply gives_bind; [apply gives_type3_generic|]; intros x9 _.
  eapply gives_bind; [apply gives_type3_generic|]; intros x10 _. eapply gives_bind; [apply gives_trailing|]; intros x11 _.
  apply gives_ret. exact H7.
Qed.
Lemma gives_u_status : gives (fun p => pcs_valid (u_status_pre_coded_status p) = true) u_status_from_bitbuf.
Proof.
  unfold u_status_from_bitbuf.
  eapply gives_bind; [apply gives_field; lia|]; intros x0 _. eapply gives_bind; [apply gives_guard|]; intros x1 _.
  eapply gives_bind; [apply gives_field; lia|]; intros x2 _. eapply gives_bind; [apply gives_field; lia|]; intros x3 _.
  eapply gives_bind; [apply gives_ropt, gives_field; lia|]; intros x4 _. eapply gives_bind; [apply gives_ropt, gives_field; lia|]; intros x5 _.
  eapply gives_bind; [apply gives_ropt, gives_field; lia|]; intros x6 _. eapply gives_bind; [apply gives_field; lia|]; intros v Hv. cbv beta in Hv. change (2 ^ N.of_nat 16) with 65536 in Hv.
  eapply gives_bind; [now apply gives_pcs|]; intros x7 H7. cbv beta in H7.
  eapply gives_bind; [apply gives_flag|]; intros x8 _. eapply gives_bind; [apply gives_type3_generic|]; intros x9 _.
  eapply gives_bind; [apply gives_type3_generic|]; intros x10 _. eapply gives_bind; [apply gives_trailing|]; intros x11 _.
  apply gives_ret. exact H7.
Qed.

Lemma here h issi : reg_is_registered issi (reg_run h) = true <-> is_here h issi.
Proof. rewrite (proj1 (registry_answers h)). reflexivity. Qed.
Lemma members h g : reg_has_members g (reg_run h) = true <-> has_member h g.
Proof. apply (proj2 (registry_answers h)). Qed.
Lemma not_here h issi : reg_is_registered issi (reg_run h) = false -> ~ is_here h issi.
Proof. intros E H. apply here in H. congruence. Qed.
Lemma no_members h g : reg_has_members g (reg_run h) = false -> ~ has_member h g.
Proof. intros E H. apply members in H. congruence. Qed.

Lemma send_data t source dest ty data : fit 24 source = true -> sendable data = true ->
  exists sdu, send_d_sds_data t source dest ty data =
    Ok [SdToMle t (mk_addr dest false ty) (match ty with SsiGssi => L2Unacknowledged | _ => L2Acknowledged end) sdu] /\
    wf sdu /\ remaining sdu = d_sds_data_wire (from_to source data).
Proof. intros S V. exact (send_ok 128 _ _ _ (from_to_writes source data S V)). Qed.

Lemma radio_short_data cfg h i p b dest :
  wf (mi_sdu i) -> fit 24 (ad_ssi (mi_addr i)) = true ->
  u_sds_data_from_bitbuf (mi_sdu i) = Ok (p, b) -> u_sds_data_called_party_ssi p = Some dest ->
  exists q, route_rf_deliver cfg (reg_run h) i = Ok q /\
    short_data_goes cfg h (mi_dltime i) (ad_ssi (mi_addr i)) dest (u_sds_data_user_defined_data p) q.
Proof.
  intros W S E D. destruct (gives_u_sds _ _ _ W E) as [V _]. apply valid_sendable in V.
  unfold route_rf_deliver, sds_parsed. rewrite E, D. cbv zeta.
  destruct (reg_is_registered dest (reg_run h)) eqn:R; cbn [negb andb].
  { apply here in R. destruct (send_data (mi_dltime i) _ dest SsiIssi _ S V) as (sdu & -> & Ws & Rs). eexists. split; [reflexivity|]. now apply goes_to_radio. }
  apply not_here in R. destruct (reg_has_members dest (reg_run h)) eqn:G.
  { apply members in G. destruct (send_data (mi_dltime i) _ dest SsiGssi _ S V) as (sdu & -> & Ws & Rs). eexists. split; [reflexivity|]. now apply goes_to_group. }
  apply no_members in G. destruct (brew_sds_enabled cfg && _)%bool eqn:B.
  - eexists. split; [reflexivity|]. apply goes_to_network; [assumption..|]. unfold network_takes. apply andb_true_iff in B. destruct B as [B1 B2]. apply orb_true_iff in B2. auto.
  - eexists. split; [reflexivity|]. apply goes_nowhere; [assumption..|]. intros [B1 B2]. apply orb_true_iff in B2. rewrite B1, B2 in B. discriminate B.
Qed.
Lemma radio_short_data_wire cfg h i p rest dest :
  wf (mi_sdu i) -> fit 24 (ad_ssi (mi_addr i)) = true -> u_sds_data_valid p = true ->
  remaining (mi_sdu i) = u_sds_data_wire p ++ rest -> u_sds_data_called_party_ssi p = Some dest ->
  exists q, route_rf_deliver cfg (reg_run h) i = Ok q /\
    short_data_goes cfg h (mi_dltime i) (ad_ssi (mi_addr i)) dest (u_sds_data_user_defined_data p) q.
Proof.
  intros W S V E D. eapply radio_short_data; [exact W|exact S| |exact D]. exact (proj2 (u_sds_data_ok p V) _ rest W E).
Qed.
Lemma radio_short_data_dropped cfg h i :
  ((exists p b, u_sds_data_from_bitbuf (mi_sdu i) = Ok (p, b) /\ u_sds_data_called_party_ssi p = None) \/ (exists e, u_sds_data_from_bitbuf (mi_sdu i) = Err e)) ->
  route_rf_deliver cfg (reg_run h) i = Ok [].
Proof. unfold route_rf_deliver, sds_parsed. intros [(p & b & E & D)|(e & E)]; rewrite E; [now rewrite D|reflexivity]. Qed.

Lemma status_network st : pcs_valid st = true -> status_for_network st = Ok (status_on_network st).
Proof.
  destruct st as [|v|[ty r]|v]; cbn [pcs_valid status_for_network status_on_network pcs_value ssr_type ssr_reference]; intros V; try reflexivity.
  apply andb_true_iff in V. destruct V as [V _]. apply fit_lt in V. change (2 ^ N.of_nat 2) with 4 in V.
  assert (ty = 0 \/ ty = 1 \/ ty = 2 \/ ty = 3) as [->|[->|[->| ->]]] by lia; reflexivity.
Qed.
Lemma radio_status cfg h i p b dest :
  wf (mi_sdu i) -> fit 24 (ad_ssi (mi_addr i)) = true ->
  u_status_from_bitbuf (mi_sdu i) = Ok (p, b) -> u_status_called_party_ssi p = Some dest ->
  exists q, route_status_deliver cfg (reg_run h) i = Ok q /\
    status_goes cfg h (mi_dltime i) (ad_ssi (mi_addr i)) dest (u_status_pre_coded_status p) q.
Proof.
  intros W S E D. destruct (gives_u_status _ _ _ W E) as [V _].
  unfold route_status_deliver, sds_parsed. rewrite E, D. cbv zeta.
  destruct (reg_is_registered dest (reg_run h)) eqn:R.
  { apply here in R. destruct (send_ok 64 _ _ (fun sdu => SdToMle (mi_dltime i) (mk_addr dest false SsiIssi) L2Todo sdu) (status_writes _ _ S V)) as (sdu & E' & Ws & Rs).
    exists [SdToMle (mi_dltime i) (mk_addr dest false SsiIssi) L2Todo sdu]. split; [exact E'|]. now apply status_to_radio. }
  apply not_here in R. destruct (brew_is_active cfg && _)%bool eqn:B.
  - rewrite (status_network _ V). cbn [bind]. eexists. split; [reflexivity|]. apply status_to_network; [assumption..|]. apply andb_true_iff in B. destruct B as [B1 B2]. apply orb_true_iff in B2. split; auto.
  - eexists. split; [reflexivity|]. apply status_nowhere; [assumption..|]. intros [B1 B2]. apply orb_true_iff in B2. rewrite B1, B2 in B. discriminate B.
Qed.
Lemma radio_status_dropped cfg h i :
  ((exists p b, u_status_from_bitbuf (mi_sdu i) = Ok (p, b) /\ u_status_called_party_ssi p = None) \/ (exists e, u_status_from_bitbuf (mi_sdu i) = Err e)) ->
  route_status_deliver cfg (reg_run h) i = Ok [].
Proof. unfold route_status_deliver, sds_parsed. intros [(p & b & E & D)|(e & E)]; rewrite E; [now rewrite D|reflexivity]. Qed.

Lemma network_short_data h t source dest data : fit 24 source = true -> sendable data = true ->
  (is_here h dest -> exists sdu, rx_sds_from_brew (reg_run h) t source dest data =
     Ok [SdToMle (forward_to_timeslot t 1) (mk_addr dest false SsiIssi) L2Acknowledged sdu] /\
     wf sdu /\ remaining sdu = d_sds_data_wire (from_to source data)) /\
  (~ is_here h dest -> rx_sds_from_brew (reg_run h) t source dest data = Ok []).
Proof.
  intros S V. unfold rx_sds_from_brew. split; intros H.
  - apply here in H. rewrite H. cbn [negb]. exact (send_data _ source dest SsiIssi data S V).
  - destruct (reg_is_registered dest (reg_run h)) eqn:R; [|reflexivity]. apply here in R. contradiction.
Qed.
Lemma control_short_data h source dest is_group n payload : fit 24 source = true -> sendable (SdsType4 n payload) = true ->
  (is_here h dest -> exists sdu, rx_sds_from_control (reg_run h) source dest is_group n payload =
     Ok (true, [SdToMle (forward_to_timeslot time_default 1) (mk_addr dest false (if is_group then SsiGssi else SsiIssi))
                 (if is_group then L2Unacknowledged else L2Acknowledged) sdu]) /\
     wf sdu /\ remaining sdu = d_sds_data_wire (from_to source (SdsType4 n payload))) /\
  (~ is_here h dest -> rx_sds_from_control (reg_run h) source dest is_group n payload = Ok (false, [])).
Proof.
  intros S V. unfold rx_sds_from_control. split; intros H.
  - apply here in H. rewrite H. cbn [negb]. destruct (send_data (forward_to_timeslot time_default 1) source dest (if is_group then SsiGssi else SsiIssi) _ S V) as (sdu & E & P).
    exists sdu. rewrite E. destruct is_group; split; try exact P; reflexivity.
  - destruct (reg_is_registered dest (reg_run h)) eqn:R; [|reflexivity]. apply here in R. contradiction.
Qed.
