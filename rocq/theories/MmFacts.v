(** The MM PDUs that do not follow the common scheme, example values, and the cases that fail. *)
From Verif Require Import Base BitsLib BitBuffer BitBufferProofs BitBufferOps Codec CodecProofs TypedFields TypedFieldsProofs
  CmceFields CmceFieldsProofs CmceProofs MmFields MmPdus PduSpec PduProofs MmSpec MmFieldsProofs MmProofs.
Open Scope N_scope.

Definition ex_gid : gid := mk_gid (Some (mk_gia 3 4)) None (Some 1001) None None.
Definition ex_gid2 : gid := mk_gid None (Some 2) (Some 1002) (Some 204) (Some 77).
Definition ex_giu : giu := mk_giu (Some 4) None (Some 1001) None None.
Definition ex_giu2 : giu := mk_giu None (Some 1) None None (Some 4000).
Definition ex_d_attach_detach : d_attach_detach :=
  mk_d_attach_detach true false true None (Some (mk_t3g 4 5 17)) (Some [ex_gid; ex_gid2]) None.
Definition ex_d_attach_detach4 : d_attach_detach :=
  mk_d_attach_detach true false true None None (Some [ex_gid]) (Some (mk_t4g 12 20 2 777)).
Definition ex_d_attach_detach_ack : d_attach_detach_ack := mk_d_attach_detach_ack 1 false (Some (mk_t3g 15 12 99)) (Some [ex_gid; ex_gid2]) None.
Definition ex_d_lu_accept : d_lu_accept :=
  mk_d_lu_accept 3 (Some 1234567) (Some 262) None None (Some 5) None (Some (mk_t3g 3 9 300)) (Some (mk_gila 0 (Some [ex_gid; ex_gid2])))
    None None None (Some (mk_t3g 13 8 200)) None.
Definition ex_d_lu_command : d_lu_command := mk_d_lu_command true true (Some 513) (Some 204) (Some 3) None.
Definition ex_d_lu_proceeding : d_lu_proceeding := mk_d_lu_proceeding 1234567 204 (Some (mk_t3g 15 12 99)).
Definition ex_d_lu_reject : d_lu_reject := mk_d_lu_reject 3 17 true (Some 513) (Some 204) (Some (mk_t3g 13 8 200)) None.
Definition ex_u_attach_detach : u_attach_detach := mk_u_attach_detach false true None (Some [ex_giu; ex_giu2]) (Some (mk_t3g 15 12 99)).
Definition ex_u_attach_detach_ack : u_attach_detach_ack := mk_u_attach_detach_ack true (Some [ex_giu; ex_giu2]) None.
Definition ex_u_itsi_detach : u_itsi_detach := mk_u_itsi_detach (Some 204) (Some (mk_t3g 15 12 99)).
Definition ex_u_lu_demand : u_lu_demand :=
  mk_u_lu_demand 3 true true (Some 513) (Some 70000) (Some 2) (Some 16000) (Some 1234567) None (Some (mk_gild 1 (Some [ex_giu; ex_giu2])))
    None (Some (mk_t3g 9 64 18446744073709551615)) None None.
Definition ex_u_mm_status : u_mm_status := mk_u_mm_status 33 (Some 4097) (Some 13%nat).
Definition ex_mm_function_not_supported : mm_function_not_supported := mk_mm_function_not_supported 6 None.
Definition ex_mm_function_not_supported_sub : mm_function_not_supported := mk_mm_function_not_supported 6 (Some (4%nat, 9)).
Definition ex_d_mm_status : d_mm_status := mk_d_mm_status 9 None.

(** ** U-MM-STATUS *)
Lemma status_fit v : status_uplink_ok v = true -> fit 6 v = true.
Proof.
  unfold status_uplink_ok. intros H. apply N.ltb_lt. change (2 ^ N.of_nat 6) with 64.
  rewrite !orb_true_iff, !andb_true_iff, !N.leb_le in H. lia.
Qed.
Lemma u_mm_status_writes s : u_mm_status_valid s = true -> writes (u_mm_status_to_bitbuf s) (u_mm_status_wire s).
Proof.
  unfold u_mm_status_valid, u_mm_status_to_bitbuf, u_mm_status_wire. intros V. apply andb_true_iff in V. destruct V as [V1 V2].
  apply w_num; [lia|reflexivity|]. apply w_num; [lia|now apply status_fit|].
  destruct s as [u [v|] [n|]]; cbn [u_mm_status_status_uplink_dependent_information u_mm_status_status_uplink_dependent_information_len] in *; try discriminate V2.
  - rewrite !andb_true_iff in V2. destruct V2 as [[_ B] C]. apply Nat.leb_le in B. apply writes_field; [exact B|now apply fit_lt].
  - apply writes_ret.
Qed.
Lemma r_remaining {A} (k : nat -> reader A) L x : readsF (fun rest => rest = []) (k (length L)) L x -> readsF (fun rest => rest = []) (rbind rlen_remaining k) L x.
Proof.
  intros H b rest W E R. subst rest. rewrite app_nil_r in R. unfold rbind, rlen_remaining, get_len_remaining, sub_checked.
  pose proof (remaining_length b) as Q. rewrite R in Q. pose proof W as (W1 & W2 & W3 & W4).
  destruct (Nat.leb_spec (bpos b) (bend b)) as [_|]; [|lia]. cbn [bind fst snd]. rewrite <- Q. apply (H b []); [exact W|reflexivity|]. now rewrite app_nil_r.
Qed.
Lemma u_mm_status_reads s : u_mm_status_valid s = true -> readsF (fun rest => rest = []) u_mm_status_from_bitbuf (u_mm_status_wire s) s.
Proof.
  unfold u_mm_status_valid, u_mm_status_from_bitbuf, u_mm_status_wire. intros V. apply andb_true_iff in V. destruct V as [V1 V2].
  apply r_num; [lia|reflexivity|]. apply r_guard; [reflexivity|]. apply r_num; [lia|now apply status_fit|].
  apply r_guard; [exact V1|]. cbv zeta. apply r_remaining.
  destruct s as [u [v|] [n|]]; cbn [u_mm_status_status_uplink u_mm_status_status_uplink_dependent_information u_mm_status_status_uplink_dependent_information_len] in *; try discriminate V2.
  - rewrite !andb_true_iff in V2. destruct V2 as [[A B] C]. apply Nat.leb_le in A, B. cbn [cond].
    rewrite bits_of_length. replace (0 <? n)%nat with true by (symmetry; apply Nat.ltb_lt; lia).
    rewrite <- (app_nil_r (bits_of n v)). apply (r_cond _ true n (Some v)); [exact B|reflexivity|exact C|].
    apply reads_readsF, r_done. reflexivity.
  - cbn [length]. apply r_retl. apply reads_readsF, r_done. reflexivity.
Qed.
Lemma u_mm_status_conveys s : u_mm_status_valid s = true -> writes (u_mm_status_to_bitbuf s) (u_mm_status_wire s) /\
  forall b, wf b -> remaining b = u_mm_status_wire s -> u_mm_status_from_bitbuf b = Ok (s, adv b (length (u_mm_status_wire s))).
Proof.
  intros V. split; [now apply u_mm_status_writes|]. intros b W E. apply (u_mm_status_reads s V b []); [exact W|reflexivity|]. now rewrite app_nil_r.
Qed.

Lemma read_then {A} n v (k : N -> reader A) b L : (n <= 64)%nat -> fit n v = true -> wf b -> remaining b = num n v ++ L ->
  wf (adv b n) /\ remaining (adv b n) = L /\ rbind (rfield n) k b = k v (adv b n).
Proof.
  intros Hn F W E. unfold num in E. split; [|split].
  - apply wf_adv; [exact W|]. rewrite E, app_length, bits_of_length. lia.
  - rewrite remaining_adv by exact W. rewrite E. rewrite skipn_app, skipn_all2, bits_of_length, Nat.sub_diag by (rewrite bits_of_length; lia). reflexivity.
  - unfold rbind. rewrite (reads_field v n Hn (fit_lt _ _ F) b L W E), bits_of_length. reflexivity.
Qed.
Lemma read_step {A} n v (k : N -> reader A) b L X : (n <= 64)%nat -> fit n v = true -> wf b -> remaining b = num n v ++ L ->
  (wf (adv b n) -> remaining (adv b n) = L -> k v (adv b n) = X) -> rbind (rfield n) k b = X.
Proof. intros H F W E C. destruct (read_then n v k b L H F W E) as (W1 & R1 & E1). rewrite E1. now apply C. Qed.
(** More than 64 bits after the status *)
Lemma read_field_too_wide n b : wf b -> (64 < n)%nat -> read_field n b = Err EBufferEnded.
Proof.
  intros W L. unfold read_field, read_bits_opt, sub_checked. pose proof W as (W1 & W2 & W3 & W4).
  destruct (Nat.leb_spec (bstart b) (bpos b)) as [_|]; [|lia]. cbn [bind]. unfold peek_bits_startoffset.
  destruct (Nat.ltb_spec 64 n) as [_|]; [|lia]. reflexivity.
Qed.
Lemma u_mm_status_long b v rest : wf b -> remaining b = num 4 3 ++ num 6 v ++ rest -> status_uplink_ok v = true -> (64 < length rest)%nat ->
  u_mm_status_from_bitbuf b = Err EBufferEnded.
Proof.
  intros W E V L. unfold u_mm_status_from_bitbuf.
  eapply (read_step 4 3); [lia|reflexivity|exact W|exact E|]. intros W1 R1.
  unfold rbind at 1. cbn [rguard MmUl_UMmStatus N.eqb Pos.eqb rret bind fst snd].
  eapply (read_step 6 v); [lia|exact (status_fit _ V)|exact W1|exact R1|]. intros W2 R2.
  unfold rbind at 1. rewrite V. cbn [rguard rret bind fst snd].
  remember (adv (adv b 4) 6) as c eqn:Ec. clear Ec. cbv zeta.
  unfold rbind at 1. unfold rlen_remaining, get_len_remaining, sub_checked.
  pose proof (remaining_length c) as Q. rewrite R2 in Q. pose proof W2 as (X1 & X2 & X3 & X4).
  destruct (Nat.leb_spec (bpos c) (bend c)) as [_|]; [|lia]. cbn [bind fst snd]. rewrite <- Q.
  replace (0 <? length rest)%nat with true by (symmetry; apply Nat.ltb_lt; lia). cbn [ropt].
  unfold rbind at 1. unfold rbind at 1. unfold rfield. rewrite read_field_too_wide; [reflexivity|exact W2|exact L].
Qed.

(** ** MM PDU/FUNCTION NOT SUPPORTED *)
Lemma mm_function_not_supported_writes s : mm_function_not_supported_valid s = true -> writes (mm_function_not_supported_to_bitbuf s) (mm_function_not_supported_wire s).
Proof.
  unfold mm_function_not_supported_valid, mm_function_not_supported_to_bitbuf, mm_function_not_supported_wire.
  intros V. apply andb_true_iff in V. destruct V as [V1 V2]. cbv zeta.
  apply w_num; [lia|reflexivity|]. apply w_num; [lia|exact V1|].
  destruct s as [t [[len v]|]]; cbn [mm_function_not_supported_not_supported_sub_pdu_type] in *.
  - apply andb_true_iff in V2. destruct V2 as [A B]. apply Nat.leb_le in A.
    apply w_options; [reflexivity|]. intros _. apply w_t2; [exact A|exact B|exact w_mbit0].
  - apply w_options; [reflexivity|discriminate].
Qed.
Lemma mm_function_not_supported_reads s : mm_function_not_supported_valid s = true -> mm_function_not_supported_not_supported_sub_pdu_type s = None ->
  reads mm_function_not_supported_from_bitbuf (mm_function_not_supported_wire s) s.
Proof.
  unfold mm_function_not_supported_valid, mm_function_not_supported_from_bitbuf, mm_function_not_supported_wire.
  intros V N. apply andb_true_iff in V. destruct V as [V1 V2]. rewrite N. destruct s as [t o]. cbn in N. subst o. apply readsF_reads.
  apply r_num; [lia|reflexivity|]. apply r_guard; [reflexivity|]. apply r_num; [lia|exact V1|]. apply r_obit; [discriminate|].
  intros _. cbn [negb]. apply reads_readsF, r_done. reflexivity.
Qed.
Lemma mm_function_not_supported_ok s : mm_function_not_supported_valid s = true -> mm_function_not_supported_not_supported_sub_pdu_type s = None ->
  conveys (mm_function_not_supported_to_bitbuf s) mm_function_not_supported_from_bitbuf s (mm_function_not_supported_wire s).
Proof. intros V N. split; [now apply mm_function_not_supported_writes|now apply mm_function_not_supported_reads]. Qed.

(** ** D-MM-STATUS *)
Lemma d_mm_status_writes s : d_mm_status_valid s = true -> writes (d_mm_status_to_bitbuf s) (d_mm_status_wire s).
Proof.
  unfold d_mm_status_valid, d_mm_status_to_bitbuf, d_mm_status_wire. intros V. apply andb_true_iff in V. destruct V as [V1 V2].
  apply negb_true_iff, some_false in V2. rewrite V2. apply w_num; [lia|reflexivity|]. apply w_num; [lia|exact V1|].
  cbn [wopt]. apply writes_then0; [apply writes_ret|exact w_mbit0].
Qed.

(** ** Parsers that end in [unimplemented!()] *)
Lemma flag_then {A} v (k : bool -> reader A) b L : wf b -> remaining b = flag v ++ L ->
  wf (adv b 1) /\ remaining (adv b 1) = L /\ rbind rflag k b = k v (adv b 1).
Proof.
  intros W E. split; [|split].
  - apply wf_adv; [exact W|]. rewrite E. cbn [flag app length]. lia.
  - rewrite remaining_adv by exact W. rewrite E. reflexivity.
  - unfold rbind. rewrite (reads_flag v b L W E). reflexivity.
Qed.
Lemma flag_step {A} v (k : bool -> reader A) b L X : wf b -> remaining b = flag v ++ L ->
  (wf (adv b 1) -> remaining (adv b 1) = L -> k v (adv b 1) = X) -> rbind rflag k b = X.
Proof. intros W E C. destruct (flag_then v k b L W E) as (W1 & R1 & E1). rewrite E1. now apply C. Qed.
Lemma d_mm_status_unreadable s b rest : d_mm_status_valid s = true -> wf b -> remaining b = d_mm_status_wire s ++ rest -> d_mm_status_from_bitbuf b = Panic.
Proof.
  unfold d_mm_status_wire, d_mm_status_valid. intros V W E. apply andb_true_iff in V. destruct V as [V _]. rewrite <- !app_assoc in E.
  unfold d_mm_status_from_bitbuf.
  eapply (read_step 4 12); [lia|reflexivity|exact W|exact E|]. intros W1 R1.
  unfold rbind at 1. cbn [rguard MmDl_DMmStatus N.eqb Pos.eqb rret bind fst snd].
  eapply (read_step 6); [lia|exact V|exact W1|exact R1|]. reflexivity.
Qed.
Lemma d_lu_reject_unreadable s b rest : d_lu_reject_valid s = true -> wf b -> remaining b = d_lu_reject_wire s ++ rest -> d_lu_reject_from_bitbuf b = Panic.
Proof.
  unfold d_lu_reject_wire, d_lu_reject_valid. rewrite !andb_true_iff. intros V W E. destruct V as [[[[[[V1 V2] _] _] _] _] _]. rewrite <- !app_assoc in E.
  unfold d_lu_reject_from_bitbuf.
  eapply (read_step 4 7); [lia|reflexivity|exact W|exact E|]. intros W1 R1.
  unfold rbind at 1. cbn [rguard MmDl_DLocationUpdateReject N.eqb Pos.eqb rret bind fst snd].
  eapply (read_step 3 (d_lu_reject_location_update_type s)); [lia|exact V1|exact W1|exact R1|]. intros W2 R2.
  eapply (read_step 5 (d_lu_reject_reject_cause s)); [lia|exact V2|exact W2|exact R2|]. intros W3 R3.
  eapply (flag_step (d_lu_reject_cipher_control s)); [exact W3|exact R3|]. intros _ _. reflexivity.
Qed.
Lemma d_lu_command_unreadable s b rest : d_lu_command_valid s = true -> wf b -> remaining b = d_lu_command_wire s ++ rest -> d_lu_command_from_bitbuf b = Panic.
Proof.
  unfold d_lu_command_wire. intros _ W E. rewrite <- !app_assoc in E. unfold d_lu_command_from_bitbuf.
  eapply (read_step 4 6); [lia|reflexivity|exact W|exact E|]. intros W1 R1.
  unfold rbind at 1. cbn [rguard MmDl_DLocationUpdateCommand N.eqb Pos.eqb rret bind fst snd].
  eapply (flag_step (d_lu_command_group_identity_report s)); [exact W1|exact R1|]. intros W2 R2.
  eapply (flag_step (d_lu_command_cipher_control s)); [exact W2|exact R2|]. intros _ _. reflexivity.
Qed.
Lemma mm_function_not_supported_unreadable s b rest : mm_function_not_supported_valid s = true -> some (mm_function_not_supported_not_supported_sub_pdu_type s) = true ->
  wf b -> remaining b = mm_function_not_supported_wire s ++ rest -> mm_function_not_supported_from_bitbuf b = Err ENotImplemented.
Proof.
  unfold mm_function_not_supported_wire, mm_function_not_supported_valid. rewrite andb_true_iff. intros [V _] N W E. rewrite <- !app_assoc in E.
  destruct (mm_function_not_supported_not_supported_sub_pdu_type s) as [[len v]|]; [|discriminate]. unfold options in E. cbn [existsb id orb] in E.
  change (true :: t2 len (Some v) ++ [false]) with (flag true ++ (t2 len (Some v) ++ [false])) in E. rewrite <- !app_assoc in E.
  unfold mm_function_not_supported_from_bitbuf.
  eapply (read_step 4 15); [lia|reflexivity|exact W|exact E|]. intros W1 R1.
  unfold rbind at 1. cbn [rguard MmDl_MmPduFunctionNotSupported N.eqb Pos.eqb rret bind fst snd].
  eapply (read_step 4 (mm_function_not_supported_not_supported_pdu_type s)); [lia|exact V|exact W1|exact R1|]. intros W2 R2.
  eapply (flag_step true); [exact W2|exact R2|]. intros _ _. reflexivity.
Qed.

(** ** Energy saving information *)
(** values the writer accepts *)
Definition esi_written (s : esi) : bool :=
  fit 3 (esi_mode s) && fito 2 (esi_frame s) && fito 2 (esi_multiframe s) &&
  (if esi_mode s =? 0 then negb (some (esi_frame s)) && negb (some (esi_multiframe s)) else some (esi_frame s) && some (esi_multiframe s)).
Lemma esi_writes s : esi_written s = true -> writes (esi_to_bitbuf s) (esi_bits s).
Proof.
  unfold esi_written, esi_to_bitbuf, esi_bits. rewrite !andb_true_iff. intros [[[A B] C] D]. apply w_num; [lia|exact A|].
  destruct s as [m f n]. cbn [esi_mode esi_frame esi_multiframe] in *. destruct (m =? 0).
  - apply andb_true_iff in D. destruct D as [D E]. apply negb_true_iff, some_false in D, E. subst f n.
    apply w_guard; [reflexivity|]. apply w_guard; [reflexivity|]. apply (writes_field 0 4); [lia|reflexivity].
  - destruct f as [f|], n as [n|]; try discriminate D. apply w_num; [lia|exact B|]. apply writes_field; [lia|now apply fit_lt].
Qed.
Lemma esi_never s : esi_written s = true -> exists s', s' <> s /\ reads esi_from_bitbuf (esi_bits s) s'.
Proof.
  unfold esi_written, esi_bits. rewrite !andb_true_iff. intros [[[A B] C] D].
  destruct s as [m f n]. cbn [esi_mode esi_frame esi_multiframe] in *. destruct (m =? 0) eqn:E.
  - apply andb_true_iff in D. destruct D as [D D']. apply negb_true_iff, some_false in D, D'. subst f n.
    exists (mk_esi m (Some 0) (Some 0)). split; [congruence|]. apply readsF_reads.
    rewrite <- (app_nil_r (num 2 0 ++ num 2 0)), <- app_assoc.
    apply r_num; [lia|exact A|]. apply r_num; [lia|reflexivity|]. apply r_num; [lia|reflexivity|]. rewrite E.
    apply r_guard; [reflexivity|]. apply r_guard; [reflexivity|]. apply reads_readsF, r_done. reflexivity.
  - destruct f as [f|], n as [n|]; try discriminate D.
    exists (mk_esi m None None). split; [congruence|]. apply readsF_reads.
    rewrite <- (app_nil_r (num 2 f ++ num 2 n)), <- app_assoc.
    apply r_num; [lia|exact A|]. apply r_num; [lia|exact B|]. apply r_num; [lia|exact C|]. rewrite E. apply reads_readsF, r_done. reflexivity.
Qed.
Lemma esi_refuted s : esi_written s = true ->
  writes (esi_to_bitbuf s) (esi_bits s) /\ exists s', s' <> s /\ reads esi_from_bitbuf (esi_bits s) s'.
Proof. intros V. split; [now apply esi_writes|now apply esi_never]. Qed.

(** ** Group identity uplink with an address extension but no GSSI *)
Lemma giu_refuted : exists b s',
  giu_to_bitbuf (mk_giu (Some 4) None None (Some 204) (Some 4000)) (bb_new_autoexpand 64) = Ok b /\
  giu_from_bitbuf (set_pos b 0) = Ok (mk_giu (Some 4) None None None (Some 204), s').
Proof. eexists. eexists. split; vm_compute; reflexivity. Qed.

(** ** Type 4 elements of unspecified content *)
Lemma type4_refuted : d_attach_detach_valid ex_d_attach_detach4 = true /\
  reads d_attach_detach_from_bitbuf (d_attach_detach_wire ex_d_attach_detach4) ex_d_attach_detach4 /\
  d_attach_detach_to_bitbuf ex_d_attach_detach4 (bb_new_autoexpand 400) = Panic.
Proof. split; [reflexivity|]. split; [now apply d_attach_detach_reads|]. vm_compute. reflexivity. Qed.
