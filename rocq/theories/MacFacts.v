(** Slot-count codes, header-length facts and the PDU values for which the formats fail. *)
From Verif Require Import Base BitsLib BitBuffer BitBufferProofs BitBufferOps Codec CodecProofs TypedFields MacFields MacPdus MacBroadcast
  Layout LayoutProofs MacSpec MacPdusProofs MacBroadcastProofs TdmaTime.
Open Scope N_scope.

Lemma code_table c : c <= 15 -> In c [0; 1; 2; 3; 4; 5; 6; 7; 8; 9; 10; 11; 12; 13; 14; 15].
Proof.
  intros H. replace c with (N.of_nat (N.to_nat c)) by lia. assert (L : (N.to_nat c <= 15)%nat) by lia. revert L. generalize (N.to_nat c). intros n L.
  do 16 (destruct n as [|n]; [cbn; tauto|]). lia.
Qed.
Lemma resreq_code_spec req : 1 <= req -> req <= 68 ->
  exists n, resreq_to_req_slotcount (resreq_from_req_slotcount req) = Ok n /\ req <= n /\
  forall c m, c <= 15 -> resreq_to_req_slotcount c = Ok m -> req <= m -> n <= m.
Proof.
  intros H1 H2.
  assert (E : forallb (fun i => let r := N.of_nat (S i) in
     match resreq_to_req_slotcount (resreq_from_req_slotcount r) with
     | Ok n => (r <=? n) && forallb (fun c => match resreq_to_req_slotcount c with Ok m => implb (r <=? m) (n <=? m) | _ => true end)
                              [0; 1; 2; 3; 4; 5; 6; 7; 8; 9; 10; 11; 12; 13; 14; 15]
     | _ => false end) (seq 0 68) = true) by (vm_compute; reflexivity).
  rewrite forallb_forall in E. specialize (E (N.to_nat (req - 1))). cbv beta zeta in E.
  replace (N.of_nat (S (N.to_nat (req - 1)))) with req in E by lia.
  specialize (E ltac:(apply in_seq; lia)).
  destruct (resreq_to_req_slotcount (resreq_from_req_slotcount req)) as [n| |]; try discriminate E. exists n. apply andb_prop in E. destruct E as (E1 & E2).
  split; [reflexivity|]. split; [now apply N.leb_le|]. intros c m Hc Hm Hr. rewrite forallb_forall in E2. specialize (E2 c (code_table c Hc)).
  rewrite Hm in E2. apply N.leb_le in Hr. rewrite Hr in E2. now apply N.leb_le.
Qed.
Lemma cap_code_spec req : 1 <= req -> req <= 68 ->
  exists c n, cap_from_req_slotcount req = Ok c /\ c <= 15 /\ cap_to_req_slotcount c = Ok n /\ req <= n /\
  forall c' m, c' <= 15 -> cap_to_req_slotcount c' = Ok m -> req <= m -> n <= m.
Proof.
  intros H1 H2.
  assert (E : forallb (fun i => let r := N.of_nat (S i) in
     match cap_from_req_slotcount r with
     | Ok c => (c <=? 15) && match cap_to_req_slotcount c with
        | Ok n => (r <=? n) && forallb (fun c => match cap_to_req_slotcount c with Ok m => implb (r <=? m) (n <=? m) | _ => true end)
                              [0; 1; 2; 3; 4; 5; 6; 7; 8; 9; 10; 11; 12; 13; 14; 15]
        | _ => false end
     | _ => false end) (seq 0 68) = true) by (vm_compute; reflexivity).
  rewrite forallb_forall in E. specialize (E (N.to_nat (req - 1))). cbv beta zeta in E.
  replace (N.of_nat (S (N.to_nat (req - 1)))) with req in E by lia.
  specialize (E ltac:(apply in_seq; lia)).
  destruct (cap_from_req_slotcount req) as [c| |]; try discriminate E. apply andb_prop in E. destruct E as (E0 & E).
  destruct (cap_to_req_slotcount c) as [n| |] eqn:EC; try discriminate E. exists c, n. apply andb_prop in E. destruct E as (E1 & E2).
  split; [reflexivity|]. split; [now apply N.leb_le|]. split; [assumption|]. split; [now apply N.leb_le|].
  intros c' m Hc Hm Hr. rewrite forallb_forall in E2. specialize (E2 c' (code_table c' Hc)).
  rewrite Hm in E2. apply N.leb_le in Hr. rewrite Hr in E2. now apply N.leb_le.
Qed.
Lemma slotcount_panics c : c <= 15 ->
  (resreq_to_req_slotcount c = Panic <-> c = 0 \/ c = 15) /\ (cap_to_req_slotcount c = Panic <-> c = 0 \/ c = 15).
Proof. intros H. pose proof (code_table c H) as I. cbn [In] in I. repeat (destruct I as [<-|I]; [split; split; vm_compute; intuition congruence|]). destruct I. Qed.

Lemma mend_hdr_len p : mend_valid p = true -> me_ca p = None -> me_sg p = None ->
  mend_compute_hdr_len (is_some (me_sg p)) (is_some (me_ca p)) = Ok (width (mend_layout p)).
Proof. intros _ H1 H2. unfold mend_layout. rewrite H1, H2. reflexivity. Qed.

(** The reservation request of a MAC-END on the uplink is refused whatever its value. *)
Lemma meul_req_rejected f q b rest : q <= 15 -> wf b -> remaining b = enc (meul_layout (mk_meul f None (Some q))) ++ rest ->
  meul_read b = Err EInvalidValue.
Proof.
  intros Hq W R. unfold meul_layout in R. cbn [eu_fill eu_len eu_req] in R.
  assert (F : fits [(1, 2%nat); (1, 1%nat); fl f; (48 + q, 6%nat)] = true).
  { cbn [fits forallb fst snd fl]. change (2 ^ N.of_nat 6) with 64. rewrite !andb_true_iff. repeat split; try (apply N.ltb_lt; lia); destruct f; reflexivity. }
  unfold meul_read, rbind at 1.
  cbn [enc flat_map fst snd fl] in R. rewrite <- !app_assoc in R. cbn [app] in R.
  assert (S1 : forall n v b0 l, (n <= 64)%nat -> v < 2 ^ N.of_nat n -> wf b0 -> remaining b0 = bits_of n v ++ l ->
     exists b1, rfield n b0 = Ok (v, b1) /\ wf b1 /\ remaining b1 = l).
  { intros n v b0 l Hn Hv W0 R0. exists (adv b0 n). pose proof (reads_field v n Hn Hv b0 l W0 R0) as E. rewrite bits_of_length in E. split; [exact E|].
    assert (n <= length (remaining b0))%nat by (rewrite R0, app_length, bits_of_length; lia).
    split; [now apply wf_adv|]. rewrite remaining_adv by assumption. rewrite R0, skipn_app, bits_of_length, Nat.sub_diag.
    rewrite skipn_all2 by (rewrite bits_of_length; lia). reflexivity. }
  destruct (S1 2%nat 1 b _ ltac:(lia) ltac:(reflexivity) W R) as (b1 & E1 & W1 & R1). rewrite E1. cbn [bind fst snd]. unfold rbind at 1. cbn [rassert rret bind].
  change (rassert (1 =? 1) b1) with (Ok (tt, b1)). cbn [bind fst snd]. unfold rbind at 1.
  destruct (S1 1%nat 1 b1 _ ltac:(lia) ltac:(reflexivity) W1 R1) as (b2 & E2 & W2 & R2). rewrite E2. cbn [bind fst snd]. unfold rbind at 1.
  change (rassert (1 =? 1) b2) with (Ok (tt, b2)). cbn [bind fst snd]. unfold rbind at 1.
  destruct (S1 1%nat (N.b2n f) b2 _ ltac:(lia) ltac:(destruct f; reflexivity) W2 R2) as (b3 & E3 & W3 & R3).
  unfold rflag, rbind at 1. rewrite E3. cbn [bind fst snd]. unfold rret at 1. cbn [bind fst snd]. unfold rbind at 1.
  destruct (S1 6%nat (48 + q) b3 _ ltac:(lia) ltac:(change (2 ^ N.of_nat 6) with 64; lia) W3 R3) as (b4 & E4 & W4 & R4).
  rewrite E4. cbn [bind fst snd]. destruct (N.eqb_spec (48 + q) 0); [lia|]. destruct (N.ltb_spec (48 + q) 47); [lia|]. destruct (N.ltb_spec (48 + q) 1114112); [reflexivity|lia].
Qed.

(** Reading back what a writer produced, in a scratch buffer, for the witnesses. *)
Definition rt {A} (w : wr) (r : reader A) : res A :=
  b <- w (bb_new 256) ;; b' <- seek 0 b ;; x <- r b' ;; Ok (fst x).

Lemma mr_all p : mr_valid p = true ->
  carries (mr_write p) mr_read (mr_on_air p) (mr_layout p) /\ mr_compute_header_len p = Ok (length (enc (mr_layout p))).
Proof. intros V. split; [now apply mr_carries|]. rewrite enc_length. now apply mr_header_len. Qed.
Lemma mend_all p : mend_valid p = true ->
  carries (mend_write p) mend_read p (mend_layout p) /\
  (me_sg p = None -> me_ca p = None -> mend_compute_hdr_len false false = Ok (length (enc (mend_layout p)))).
Proof.
  intros V. split; [now apply mend_carries|]. intros H1 H2. rewrite enc_length. pose proof (mend_hdr_len p V H2 H1) as E. rewrite H1, H2 in E. exact E.
Qed.
Lemma mend_len_wrong : exists p, mend_valid p = true /\ me_ca p = None /\ is_some (me_sg p) = true /\
  mend_compute_hdr_len true false = Ok 19%nat /\ length (enc (mend_layout p)) = 21%nat.
Proof. exists (mk_mend false 0 4 (Some (mk_sg 1 GdNext)) None). vm_compute. repeat split. Qed.
Lemma meul_all p : meul_valid p = true ->
  writes (meul_write p) (enc (meul_layout p)) /\ (eu_req p = None -> carries (meul_write p) meul_read p (meul_layout p)).
Proof. intros V. split; [now apply meul_writes|]. now apply meul_carries. Qed.
Lemma aa_widths :
  (forall p, aa_valid p = true -> length (enc (aa_layout p)) = 14%nat) /\
  (forall p, a18_valid p = true -> length (enc (a18_layout p)) = 14%nat).
Proof.
  split; intros p V; rewrite enc_length.
  - unfold aa_valid in V. splitb. unfold aa_layout. destruct p as [d u f1 f2 f]. cbn [aa_dl aa_ul aa_f1_af1 aa_f2_af2 aa_f2_af] in *.
    destruct u, f1, f2, f, d; try discriminate; reflexivity.
  - unfold a18_valid in V. splitb. unfold a18_layout. destruct p as [u f1 f2 f]. cbn [a18_ul a18_f1_af1 a18_f2_af2 a18_f2_af] in *.
    destruct u, f1, f2, f; try discriminate; reflexivity.
Qed.
Lemma si_all p : si_valid p = true -> carries (si_write p) si_read p (si_layout p) /\ length (enc (si_layout p)) = 82%nat.
Proof.
  intros V. split; [now apply si_carries|]. rewrite enc_length. unfold si_valid in V. splitb. unfold si_layout.
  destruct p as [car ba of du re cs tx rx ap dl cck hy op tcf aca ex].
  cbn [si_carrier si_band si_offset si_duplex si_reverse si_csch si_txpwr si_rxlev si_accpar si_dltimeout si_cck si_hyper si_opt si_tcf si_aca si_ext] in *.
  destruct aca as [a|], ex as [e|]; destruct op as [|[[?|?|]|[?|?|]|]]; try discriminate; destruct cck, hy; try discriminate; try reflexivity;
    unfold es_valid, es_layout in *; splitb; destruct e as [au c1 c2 c3 sck a b c d sd g se da];
    cbn [es_auth es_c1 es_c2 es_c3 es_sck es_dcks es_dckr es_gckl es_gckvn es_sdstl es_gck es_section es_data] in *;
    destruct sck, a, b, c, d; try discriminate; reflexivity.
Qed.
Definition si_even : mac_sysinfo := mk_si 1 4 0 0 false 0 4 3 5 15 None (Some 7) 0 None None None.
Definition si_odd : mac_sysinfo := mk_si 1 4 0 0 false 0 4 3 5 15 None (Some 7) 1 (Some (repeat true 18)) None None.
Lemma si_ts_modes :
  rt (si_write si_even) si_read = Ok si_even /\ rt (wthen (si_write si_even) (wfield 5 8)) (rbind si_read (fun _ => rfield 8)) <> Ok 5 /\
  (exists q, rt (si_write si_odd) si_read = Ok q /\ si_tcf si_odd <> None /\ si_tcf q = None).
Proof.
  split; [vm_compute; reflexivity|]. split; [vm_compute; discriminate|].
  exists (mk_si 1 4 0 0 false 0 4 3 5 15 None (Some 7) 1 None None None). split; [vm_compute; reflexivity|]. split; [discriminate|reflexivity].
Qed.
Lemma field_step n v b0 l : (n <= 64)%nat -> v < 2 ^ N.of_nat n -> wf b0 -> remaining b0 = bits_of n v ++ l ->
     exists b1, rfield n b0 = Ok (v, b1) /\ wf b1 /\ remaining b1 = l.
Proof.
  intros Hn Hv W0 R0. exists (adv b0 n). pose proof (reads_field v n Hn Hv b0 l W0 R0) as E. rewrite bits_of_length in E. split; [exact E|].
  assert (n <= length (remaining b0))%nat by (rewrite R0, app_length, bits_of_length; lia).
  split; [now apply wf_adv|]. rewrite remaining_adv by assumption. rewrite R0, skipn_app, bits_of_length, Nat.sub_diag.
  rewrite skipn_all2 by (rewrite bits_of_length; lia). reflexivity.
Qed.
Ltac fstep W R := match type of R with remaining ?b = bits_of ?n ?v ++ ?l =>
  let b1 := fresh "b" in let E := fresh "E" in let W1 := fresh "W" in let R1 := fresh "R" in
  destruct (field_step n v b l ltac:(lia) ltac:(reflexivity) W R) as (b1 & E & W1 & R1); clear W R; rename W1 into W; rename R1 into R;
  unfold rflag; unfold rbind at 1; try (unfold rbind at 1); rewrite E; cbn [bind fst snd rret] end.
Lemma field_values_wrong :
  rt (sg_write (mk_sg 1 (GdDelay 14))) sg_read = Ok (mk_sg 1 GdFrame18) /\
  sg_write (mk_sg 1 (GdDelay 16)) (bb_new 64) = Panic /\
  (forall b rest, wf b -> remaining b = enc [(1, 2%nat); (8, 4%nat); (0, 2%nat); (0, 1%nat); (0, 1%nat); (1, 12%nat); (0, 1%nat); (1, 2%nat)] ++ rest ->
     ca_read b = Panic).
Proof.
  split; [vm_compute; reflexivity|]. split; [vm_compute; reflexivity|]. intros b rest W R.
  unfold enc, flat_map, fst, snd in R. repeat rewrite <- app_assoc in R. cbn [app] in R.
  remember ca_read as r eqn:Er. unfold ca_read in Er. subst r.
  unfold rbind at 1.
  repeat match type of R with remaining ?b = bits_of ?n ?v ++ ?l =>
    let b1 := fresh "b" in let E := fresh "E" in let W1 := fresh "W" in let R1 := fresh "R" in
    destruct (field_step n v b l ltac:(lia) ltac:(reflexivity) W R) as (b1 & E & W1 & R1); clear R; rename R1 into R; clear W; rename W1 into W end.
  unfold rbind, rflag, rlift, rassert, rret, rbind, ropt.
  repeat (match goal with E : rfield ?n ?b = _ |- context [rfield ?n ?b] => rewrite E; clear E end; cbn -[rfield N.land]).
  reflexivity.
Qed.
Lemma reservations_understood :
  (forall p, macc_valid p = true -> reads macc_read (enc (macc_layout p)) p) /\
  (forall p, mdata_valid p = true -> reads mdata_read (enc (mdata_layout p)) p) /\
  (forall p, mehu_valid p = true -> reads mehu_read (enc (mehu_layout p)) p) /\
  (forall q, q <= 15 -> resreq_try_from q = Some q) /\
  (forall fill frag q a, q <= 15 -> mu_addr_valid a = true -> fits (mu_addr_layout a) = true ->
     macc_valid (mk_mul fill (mu_enc a) (mu_addr a) (mu_el a) None (Some frag) (Some q)) = true /\
     mdata_valid (mk_mul fill (mu_enc a) (mu_addr a) (mu_el a) None (Some frag) (Some q)) = true /\
     mehu_valid (mk_mehu fill None (Some q)) = true).
Proof.
  split; [intros p V; exact (proj2 (macc_carries p V))|]. split; [intros p V; exact (proj2 (mdata_carries p V))|].
  split; [intros p V; exact (proj2 (mehu_carries p V))|]. split.
  - intros q Hq. unfold resreq_try_from. destruct (N.leb_spec q 15); [reflexivity|lia].
  - intros fill frag q a Hq HA HF.
    assert (HQ : (q <? 2 ^ N.of_nat 4) = true) by (change (2 ^ N.of_nat 4) with 16; apply N.ltb_lt; lia).
    unfold macc_valid, mdata_valid, mehu_valid, macc_layout, mdata_layout, mehu_layout, mu_addr_valid, mu_addr_layout, mu_tail_valid in *.
    cbn [mu_fill mu_enc mu_addr mu_el mu_len mu_frag mu_req eh_fill eh_len eh_req is_some xorb] in *.
    rewrite !fits_app, HF, HA. cbn [fits forallb fst snd fl]. rewrite HQ.
    destruct fill, frag, (mu_enc a); repeat split; reflexivity.
Qed.
